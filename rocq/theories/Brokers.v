(** The broker list and the administrative client (brokers.go, client.go, broker.go). *)
From Verif Require Import Base Builders.

(** ** Data *)

(** What the code reads of a MetadataResponse (metadata_response.go): brokers as
    (NodeID, NetAddress), the controller, and per topic the partitions with their leader
    and replicas.  Error codes only show through resp.Error(), see [exch]. *)
Record meta := mkMeta {
  m_brokers : list (Z * bytes);
  m_ctl : Z;
  m_topics : list (bytes * list (Z * (Z * list Z)))
}.
(** the zero value of MetadataResponse *)
Definition meta0 : meta := mkMeta [] 0 [].

(** Requests as far as the code here decides about their content.  The bodies of the
    requests to the controller are modelled in Requests.v; here [QAdmin k] is a request with
    api key [k]. *)
Inductive req :=
| QMeta (topics : list bytes)
| QOffsets (topic : bytes) (pids : list Z) (time num : Z)
| QCoord (group : bytes)
| QListGroups
| QLogDirs (tps : list (bytes * list Z))
| QDeleteGroups (groups : list bytes)
| QLeave (group member : bytes)
| QAdmin (api : Z).

(** Log directories: name, and per topic its name and opaque sizes. *)
Notation logdir := (bytes * list (bytes * bytes))%type.
(** the responses, as far as brokers.go and client.go look into them *)
Inductive resp :=
| RMeta (m : meta)
| ROffsets (r : list (Z * list Z))
| RCoord (node : Z)
| RGroups (gs : list bytes)
| RLogDirs (ds : list logdir)
| RDeleted (rs : list (bytes * Z))
| RLeave (code : Z)
| RAdmin (api : Z) (body : bytes).

(** The response type response.go decodes for a request (its switch over the api key). *)
Definition fits (q : req) (r : resp) : Prop :=
  match q, r with
  | QMeta _, RMeta _ | QOffsets _ _ _ _, ROffsets _ | QCoord _, RCoord _ | QListGroups, RGroups _
  | QLogDirs _, RLogDirs _ | QDeleteGroups _, RDeleted _ | QLeave _ _, RLeave _ => True
  | QAdmin k, RAdmin k' _ => k = k'
  | _, _ => False
  end.

(** broker.go:18-30: a *Broker.  [h_id] is its identity (the pointer). *)
Record handle := mkH { h_id : Z; h_node : Z; h_addr : bytes }.

(** What one connection attempt does: connected and initialised, not connected, or connected
    and then failed to get api versions or to authenticate. *)
Inductive dres := DialOk | DialFail (e : err) | InitFail (e : err).

(** What happens, for the statements: a lookup by GetBroker, a question on the handle it
    gave with what RequestAndGet returned, a question on a handle of its own (bootstrap and
    refresh), a new connection, a closed one. *)
Inductive ev :=
| EvGet (node : Z) (g : handle + err)
| EvAsk (h : handle) (q : req) (a : option resp * option err)
| EvProbe (h : handle)
| EvOpen (id : Z)
| EvClose (id : Z).

(** Go maps as association lists; iteration order is chosen by [ord] below. *)
Fixpoint get {V} (k : Z) (l : list (Z * V)) : option V :=
  match l with
  | [] => None
  | (k', v) :: l' => if k' =? k then Some v else get k l'
  end.
(** assignment to a key of a Go map *)
Fixpoint put {V} (k : Z) (v : V) (l : list (Z * V)) : list (Z * V) :=
  match l with
  | [] => [(k, v)]
  | (k', v') :: l' => if k' =? k then (k, v) :: l' else (k', v') :: put k v l'
  end.

(** errors.As(err, &KafkaError) *)
Fixpoint kafka_err (e : err) : bool :=
  match e with EWrap e' => kafka_err e' | EKafka _ => true | _ => false end.

(** EInvalid numbers used here *)
Definition E_no_info := EInvalid 401.     (* could not get broker info with nodeID *)
Definition E_empty_meta := EInvalid 402.  (* no brokers in getmetadata response *)
Definition E_no_bootstrap := EInvalid 403. (* could not get any available broker *)
Definition E_no_partition := EInvalid 404. (* could not find partition in topic *)
Definition E_no_leader := EInvalid 405.   (* could not find out leader of topic *)
Definition E_no_coordinator := EInvalid 406.
(** brokers.go:375: the error after the last broker *)
Definition E_all_failed := EInvalid 407.  (* could not request from all brokers *)
Definition E_not_number := EInvalid 408.  (* broker id must be a number *)

Section Brokers.
  (** The rest of the world: network, cluster, scheduler.  Every answer may depend on
      everything that happened before. *)
  Variable W : Type.
  (** createConnAndAuth of a new handle (broker.go:79-108) *)
  Variable dial : W -> bytes -> W * dres.
  (** one RequestAndGet up to the decoded response (broker.go:239-261: reopening a closed
      connection, writing, reading, decoding): an error, or a response with its Error().
      Connections the handle closes and reopens by itself count as the handle's. *)
  Variable exch : W -> handle -> req -> W * (err + resp * option err).
  (** the order in which a range statement visits a map *)
  Variable ord : forall A : Type, W -> list A -> W * list A.

  (** brokers.go:13-24 and the ghost trace.  [b_boot]: the bootstrap servers after
      strings.Split.  brokersInfo maps node ids to addresses: BrokerInfo.NodeID is the key.
      The mutex is not modelled: calls are atomic. *)
  Record bst := mkB {
    b_w : W;
    b_boot : list bytes;
    b_info : list (Z * bytes);
    b_cache : list (Z * handle);
    b_ctl : Z;
    b_next : Z;
    b_tr : list ev
  }.
  (** field updates of the state (bookkeeping of the model) *)
  Definition with_w (s : bst) (w : W) : bst := mkB w (b_boot s) (b_info s) (b_cache s) (b_ctl s) (b_next s) (b_tr s).
  (** appends to the ghost trace *)
  Definition log (s : bst) (e : ev) : bst :=
    mkB (b_w s) (b_boot s) (b_info s) (b_cache s) (b_ctl s) (b_next s) (b_tr s ++ [e]).
  (** brokersInfo is replaced (brokers.go:90, 136, 163) *)
  Definition with_info (s : bst) (i : list (Z * bytes)) : bst :=
    mkB (b_w s) (b_boot s) i (b_cache s) (b_ctl s) (b_next s) (b_tr s).
  (** an entry of the map brokers changes (brokers.go:93, 213) *)
  Definition with_cache (s : bst) (c : list (Z * handle)) : bst :=
    mkB (b_w s) (b_boot s) (b_info s) c (b_ctl s) (b_next s) (b_tr s).
  (** controllerID is set (brokers.go:89) *)
  Definition with_ctl (s : bst) (c : Z) : bst :=
    mkB (b_w s) (b_boot s) (b_info s) (b_cache s) c (b_next s) (b_tr s).
  (** the number of the next handle (model only) *)
  Definition fresh (s : bst) : bst :=
    mkB (b_w s) (b_boot s) (b_info s) (b_cache s) (b_ctl s) (b_next s + 1) (b_tr s).
  (** the order in which a Go map is walked, chosen by the environment *)
  Definition ordered {A} (s : bst) (l : list A) : bst * list A :=
    let '(w, l') := ord A (b_w s) l in (with_w s w, l').

  (** broker.go:37-50 NewBroker: on InitFail the connection is open and nobody has it. *)
  Definition new_broker (s : bst) (addr : bytes) (node : Z) : bst * (handle + err) :=
    let '(w, d) := dial (b_w s) addr in
    let s := with_w s w in
    match d with
    | DialOk => (fresh (log s (EvOpen (b_next s))), inl (mkH (b_next s) node addr))
    | DialFail e => (s, inr e)
    | InitFail e => (fresh (log s (EvOpen (b_next s))), inr e)
    end.
  (** broker.go:239-263 RequestAndGet *)
  Definition rag (s : bst) (h : handle) (q : req) : bst * (option resp * option err) :=
    let '(w, a) := exch (b_w s) h q in
    let o := match a with inl e => (None, Some e) | inr (r, e) => (Some r, e) end in
    (log (with_w s w) (EvAsk h q o), o).
  (** The same on a handle of its own: bootstrap and refresh. *)
  Definition probe (s : bst) (h : handle) : bst * (option resp * option err) :=
    let '(w, a) := exch (b_w s) h (QMeta []) in
    let o := match a with inl e => (None, Some e) | inr (r, e) => (Some r, e) end in
    (log (with_w s w) (EvProbe h), o).
  (** broker.go:349-357 requestMetaData: the checked type assertion keeps the zero response when the
      request failed.  391-399 findCoordinator, 360-368 requestOffsets likewise. *)
  Definition as_meta (o : option resp * option err) : meta * option err :=
    match fst o with Some (RMeta m) => (m, snd o) | _ => (meta0, snd o) end.
  (** broker.go:360-368 requestOffsets: the response is used as an OffsetsResponse *)
  Definition as_offsets (o : option resp * option err) : list (Z * list Z) * option err :=
    match fst o with Some (ROffsets m) => (m, snd o) | _ => ([], snd o) end.
  (** broker.go:391-399 findCoordinator: the response is used as a FindCoordinatorResponse *)
  Definition as_coord (o : option resp * option err) : Z * option err :=
    match fst o with Some (RCoord m) => (m, snd o) | _ => (0, snd o) end.

  (** brokers.go:132-136, 159-163: brokersInfo from a response *)
  Definition info_of (l : list (Z * bytes)) : list (Z * bytes) :=
    fold_left (fun i x => put (fst x) (snd x) i) l [].

  (** brokers.go:69-102 newBrokersFromOne; the state given holds only trace and world. *)
  Definition from_one (s : bst) (h : handle) : bst * option err :=
    let '(s, o) := probe s h in
    let '(m, e) := as_meta o in
    match e with
    | Some e => (s, Some e)
    | None =>
        match m_brokers m with
        | [] => (s, Some E_empty_meta)
        | bs =>
            let c := fold_left (fun c x => if bytes_eq_dec (h_addr h) (snd x) then put (fst x) h c else c) bs [] in
            (with_ctl (with_cache (with_info s (info_of bs)) c) (m_ctl m), None)
        end
    end.
  (** brokers.go:40-60 NewBrokersWithConfig *)
  Fixpoint new_brokers (s : bst) (addrs : list bytes) : bst * option err :=
    match addrs with
    | [] => (s, Some E_no_bootstrap)
    | a :: l =>
        let '(s, b) := new_broker s a (-1) in
        match b with
        | inr _ => new_brokers s l
        | inl h =>
            let '(s, e) := from_one s h in
            match e with
            | None => (s, None)
            | Some _ => new_brokers s l
            end
        end
    end.
  (** brokers.go:13-24: nothing is known yet *)
  Definition start (w : W) (boot : list bytes) : bst := mkB w boot [] [] 0 0 [].
  (** brokers.go:40-60 NewBrokersWithConfig *)
  Definition NewBrokers (w : W) (boot : list bytes) : bst * option err := new_brokers (start w boot) boot.

  (** brokers.go:118-141: the bootstrap half of refreshMetadata.  The error of the request is not
      looked at, only the number of brokers; the connection is closed only if there are
      none. *)
  Fixpoint refresh_boot (s : bst) (addrs : list bytes) : bst :=
    match addrs with
    | [] => s
    | a :: l =>
        let '(s, b) := new_broker s a (-1) in
        match b with
        | inr _ => refresh_boot s l
        | inl h =>
            let '(s, o) := probe s h in
            match m_brokers (fst (as_meta o)) with
            | [] => refresh_boot (log s (EvClose (h_id h))) l
            | bs => refresh_boot (with_info s (info_of bs)) l
            end
        end
    end.
  (** brokers.go:145-170: the half that asks the brokers known so far *)
  Fixpoint refresh_known (s : bst) (infos : list (Z * bytes)) : bst * bool :=
    match infos with
    | [] => (s, false)
    | (_, a) :: l =>
        let '(s, b) := new_broker s a (-1) in
        match b with
        | inr _ => refresh_known s l
        | inl h =>
            let '(s, o) := probe s h in
            match m_brokers (fst (as_meta o)) with
            | [] => refresh_known s l
            | bs => (with_info s (info_of bs), true)
            end
        end
    end.
  (** brokers.go:113-171 refreshMetadata: the controller is not updated *)
  Definition refresh (s : bst) : bst * bool :=
    let s := refresh_boot s (b_boot s) in
    let '(s, l) := ordered s (b_info s) in
    refresh_known s l.

  (** brokers.go:203-208 *)
  Definition known_or_refresh (s : bst) (node : Z) : bst :=
    match get node (b_info s) with Some _ => s | None => fst (refresh s) end.
  (** brokers.go:174-192 NewBroker: a handle of the caller's own *)
  Definition NewBrokerFor (s : bst) (node : Z) : bst * (handle + err) :=
    let s := known_or_refresh s node in
    match get node (b_info s) with
    | Some a =>
        let '(s, b) := new_broker s a node in
        match b with inl h => (s, inl h) | inr e => (s, inr (EWrap e)) end
    | None => (s, inr E_no_info)
    end.
  (** brokers.go:195-221 GetBroker *)
  Definition get_broker0 (s : bst) (node : Z) : bst * (handle + err) :=
    match get node (b_cache s) with
    | Some h => (s, inl h)
    | None =>
        let s := known_or_refresh s node in
        match get node (b_info s) with
        | Some a =>
            let '(s, b) := new_broker s a node in
            match b with
            | inl h => (with_cache s (put node h (b_cache s)), inl h)
            | inr e => (s, inr (EWrap e))
            end
        | None => (s, inr E_no_info)
        end
    end.
  (** brokers.go:195-221 GetBroker *)
  Definition GetBroker (s : bst) (node : Z) : bst * (handle + err) :=
    let '(s, g) := get_broker0 s node in (log s (EvGet node g), g).
  (** brokers.go:109-111 *)
  Definition GetController (s : bst) : bst * (handle + err) := GetBroker s (b_ctl s).

  (** brokers.go:223-245 RequestMetaData; [r] is the named result, kept from the last try *)
  Fixpoint rmd (s : bst) (l : list (Z * bytes)) (ts : list bytes) (r : meta) : bst * (meta * option err) :=
    match l with
    | [] => (s, (r, Some ENoBroker))
    | (node, _) :: l' =>
        let '(s, g) := GetBroker s node in
        match g with
        | inr _ => rmd s l' ts r
        | inl h =>
            let '(s, o) := rag s h (QMeta ts) in
            let '(r, e) := as_meta o in
            match e with
            | None => (s, (r, None))
            | Some e => if kafka_err e then (s, (r, Some e)) else rmd s l' ts r
            end
        end
    end.
  (** brokers.go:223-245 RequestMetaData *)
  Definition RequestMetaData (s : bst) (ts : list bytes) : bst * (meta * option err) :=
    let '(s, l) := ordered s (b_info s) in rmd s l ts meta0.

  (** offset_request.go:18-41: the partitions of a request are the keys of a map *)
  Definition pid_set (pids : list Z) : list Z := nodup Z.eq_dec pids.
  (** broker.go:360-368 requestOffsets *)
  Definition request_offsets (s : bst) (h : handle) (t : bytes) (pids : list Z) (time num : Z)
    : bst * (list (Z * list Z) * option err) :=
    let '(s, o) := rag s h (QOffsets t (pid_set pids) time num) in (s, as_offsets o).

  (** brokers.go:277-280: node id to partition ids *)
  Definition by_leader (ps : list (Z * (Z * list Z))) : list (Z * list Z) :=
    fold_left (fun m x => put (fst (snd x)) (match get (fst (snd x)) m with Some l => l | None => [] end ++ [fst x]) m) ps [].
  (** brokers.go:282-294: the loop over the leaders *)
  Fixpoint ro_all (s : bst) (t : bytes) (l : list (Z * list Z)) (time num : Z) (acc : list (list (Z * list Z)))
    : bst * res (list (list (Z * list Z))) :=
    match l with
    | [] => (s, Ok acc)
    | (leader, pids) :: l' =>
        let '(s, g) := GetBroker s leader in
        match g with
        | inr e => (s, Err (EWrap e))
        | inl h =>
            let '(s, (r, e)) := request_offsets s h t pids time num in
            match e with
            | Some e => (s, Err e)
            | None => ro_all s t l' time num (acc ++ [r])
            end
        end
    end.
  (** brokers.go:304-309: the leader of a partition *)
  Fixpoint find_pid (pid : Z) (ps : list (Z * (Z * list Z))) : option Z :=
    match ps with
    | [] => None
    | (p, (leader, _)) :: l => if p =? pid then Some leader else find_pid pid l
    end.
  (** brokers.go:248-296 RequestOffsets *)
  Definition RequestOffsets (s : bst) (t : bytes) (pid time num : Z) : bst * res (list (list (Z * list Z))) :=
    let '(s, (m, e)) := RequestMetaData s [t] in
    match e with
    | Some e => (s, Err (EWrap e))
    | None =>
        match m_topics m with
        | [] => (s, Panic)
        | (_, ps) :: _ =>
            if 0 <=? pid then
              match find_pid pid ps with
              | None => (s, Err E_no_partition)
              | Some leader =>
                  let '(s, g) := GetBroker s leader in
                  match g with
                  | inr e => (s, Err (EWrap e))
                  | inl h =>
                      let '(s, (r, e)) := request_offsets s h t [pid] time num in
                      match e with Some e => (s, Err e) | None => (s, Ok [r]) end
                  end
              end
            else
              let '(s, l) := ordered s (by_leader ps) in ro_all s t l time num []
        end
    end.

  (** brokers.go:297-311 findLeader: a broker-reported error is ignored *)
  Definition findLeader (s : bst) (t : bytes) (pid : Z) : bst * res Z :=
    let '(s, (m, e)) := RequestMetaData s [t] in
    match e with
    | Some e' =>
        if kafka_err e' then
          match m_topics m with
          | [] => (s, Panic)
          | (_, ps) :: _ => (s, match find_pid pid ps with Some l => Ok l | None => Err E_no_leader end)
          end
        else (s, Err (EWrap e'))
    | None =>
        match m_topics m with
        | [] => (s, Panic)
        | (_, ps) :: _ => (s, match find_pid pid ps with Some l => Ok l | None => Err E_no_leader end)
        end
    end.

  (** brokers.go:314-331 FindCoordinator *)
  Fixpoint fco (s : bst) (l : list (Z * bytes)) (g : bytes) : bst * res Z :=
    match l with
    | [] => (s, Err E_no_coordinator)
    | (node, _) :: l' =>
        let '(s, b) := GetBroker s node in
        match b with
        | inr _ => fco s l' g
        | inl h =>
            let '(s, o) := rag s h (QCoord g) in
            let '(r, e) := as_coord o in
            match e with
            | None => (s, Ok r)
            | Some _ => fco s l' g
            end
        end
    end.
  (** brokers.go:314-331 FindCoordinator *)
  Definition FindCoordinator (s : bst) (g : bytes) : bst * res Z :=
    let '(s, l) := ordered s (b_info s) in fco s l g.

  (** brokers.go:360-376 Request *)
  Fixpoint req_all (s : bst) (l : list (Z * bytes)) (q : req) : bst * res (option resp) :=
    match l with
    | [] => (s, Err E_all_failed)
    | (node, _) :: l' =>
        let '(s, b) := GetBroker s node in
        match b with
        | inr _ => req_all s l' q
        | inl h =>
            let '(s, (r, e)) := rag s h q in
            match e with
            | None => (s, Ok r)
            | Some _ => req_all s l' q
            end
        end
    end.
  (** brokers.go:360-376 Request *)
  Definition Request (s : bst) (q : req) : bst * res (option resp) :=
    let '(s, l) := ordered s (b_info s) in req_all s l q.

  (** resp.(T): panics on nil and on another type *)
  Definition as_admin (k : Z) (o : option resp) : res bytes :=
    match o with Some (RAdmin k' b) => if k' =? k then Ok b else Panic | _ => Panic end.
  (** client.go:164-249, 299-355, 390-401, brokers.go:334-357: the calls to the controller;
      the error is looked at before the assertion. *)
  Definition controller_call (s : bst) (k : Z) : bst * res bytes :=
    let '(s, g) := GetController s in
    match g with
    | inr e => (s, Err e)
    | inl h =>
        let '(s, (r, e)) := rag s h (QAdmin k) in
        match e with Some e => (s, Err e) | None => (s, as_admin k r) end
    end.
  (** client.go:149-161 DeleteTopics: the assertion comes first; the response is returned
      together with its error *)
  Definition DeleteTopics (s : bst) : bst * res (bytes * option err) :=
    let '(s, g) := GetController s in
    match g with
    | inr e => (s, Ok ([], Some e))
    | inl h =>
        let '(s, (r, e)) := rag s h (QAdmin 20) in
        (s, rbind (as_admin 20 r) (fun b => Ok (b, e)))
    end.
  (** broker.go:438-442 requestLeaveGroup *)
  Definition requestLeaveGroup (s : bst) (h : handle) (g m : bytes) : bst * res (Z * option err) :=
    let '(s, (r, e)) := rag s h (QLeave g m) in
    (s, match r with Some (RLeave c) => Ok (c, e) | _ => Panic end).
  (** client.go:357-388 DescribeConfigs: [broker] tells if the resource type is "broker",
      [num] what strconv.Atoi makes of the resource name *)
  Definition DescribeConfigs (s : bst) (broker : bool) (num : option Z) : bst * res bytes :=
    match (if broker then num else Some (b_ctl s)) with
    | None => (s, Err E_not_number)
    | Some n =>
        let '(s, g) := GetBroker s (if broker then sint 32 n else n) in
        match g with
        | inr e => (s, Err e)
        | inl h =>
            let '(s, (r, e)) := rag s h (QAdmin 32) in
            match e with Some e => (s, Err e) | None => (s, as_admin 32 r) end
        end
    end.

  (** client.go:44-63 ListGroups: the groups so far come with the error *)
  Fixpoint lg (s : bst) (l : list (Z * bytes)) (acc : list (Z * list bytes)) : bst * res (list (Z * list bytes) * option err) :=
    match l with
    | [] => (s, Ok (acc, None))
    | (node, _) :: l' =>
        let '(s, g) := GetBroker s node in
        match g with
        | inr e => (s, Ok (acc, Some e))
        | inl h =>
            let '(s, (r, e)) := rag s h QListGroups in
            match e with
            | Some e => (s, Ok (acc, Some e))
            | None =>
                match r with
                | Some (RGroups gs) => lg s l' (match gs with [] => acc | _ => put (h_node h) gs acc end)
                | _ => (s, Panic)   (* response.Groups on the nil result *)
                end
            end
        end
    end.
  (** client.go:44-63 ListGroups *)
  Definition ListGroups (s : bst) : bst * res (list (Z * list bytes) * option err) :=
    let '(s, l) := ordered s (b_info s) in lg s l [].

  (** client.go:77-98 *)
  Definition replicas_of (ts : list (bytes * list (Z * (Z * list Z)))) : list (Z * (bytes * Z)) :=
    flat_map (fun t => flat_map (fun p => map (fun b => (b, (fst t, fst p))) (snd (snd p))) (snd t)) ts.
  (** client.go:77-98: partitions grouped by broker *)
  Definition by_broker (l : list (Z * (bytes * Z))) : list (Z * list (bytes * Z)) :=
    fold_left (fun m x => put (fst x) (match get (fst x) m with Some l => l | None => [] end ++ [snd x]) m) l [].
  (** client.go:119-135: the topics are filtered in the response itself; 136-142 change a copy *)
  Definition keep_topics (ts : list bytes) (ds : list logdir) : list logdir :=
    map (fun d => (fst d, filter (fun t => existsb (beqb (fst t)) ts) (snd d))) ds.
  (** client.go:102-144: the loop over the brokers *)
  Fixpoint dl (s : bst) (ts : list bytes) (l : list (Z * list (bytes * Z))) (acc : list (Z * list logdir))
    : bst * res (list (Z * list logdir)) :=
    match l with
    | [] => (s, Ok acc)
    | (b, tps) :: l' =>
        let q := QLogDirs (fold_left (fun r x => ld_add r (fst x) (snd x)) tps []) in
        let '(s, g) := GetBroker s b in
        match g with
        | inr e => (s, Err e)
        | inl h =>
            let '(s, (r, e)) := rag s h q in
            match e with
            | Some _ => dl s ts l' acc
            | None =>
                match r with
                | Some (RLogDirs ds) => dl s ts l' (put b (keep_topics ts ds) acc)
                | _ => (s, Panic)
                end
            end
        end
    end.
  (** client.go:65-147 DescribeLogDirs *)
  Definition DescribeLogDirs (s : bst) (ts : list bytes) : bst * res (list (Z * list logdir)) :=
    let '(s, (m, e)) := RequestMetaData s ts in
    match e with
    | Some e => (s, Err e)
    | None => let '(s, l) := ordered s (by_broker (replicas_of (m_topics m))) in dl s ts l []
    end.

  (** client.go:252-297 DeleteGroups *)
  Fixpoint dg (s : bst) (gs : list bytes) (acc : list (bytes * Z)) : bst * res (list (bytes * Z)) :=
    match gs with
    | [] => (s, Ok acc)
    | g :: gs' =>
        let '(s, c) := FindCoordinator s g in
        match c with
        | Ok node =>
            let '(s, b) := GetBroker s node in
            match b with
            | inr e => (s, Err (EWrap e))
            | inl h =>
                let '(s, (r, e)) := rag s h (QDeleteGroups [g]) in
                match e with
                | Some e => (s, Err (EWrap e))
                | None => match r with Some (RDeleted rs) => dg s gs' (acc ++ rs) | _ => (s, Panic) end
                end
            end
        | Err e => (s, Err (EWrap e))
        | Panic => (s, Panic)
        | Unspec => (s, Unspec)
        end
    end.
  (** client.go:252-297 DeleteGroups *)
  Definition DeleteGroups (s : bst) (gs : list bytes) : bst * res (list (bytes * Z)) := dg s gs [].

  (** brokers.go:27-32 Close, the connections (closeChan: Closing.v) *)
  Definition CloseAll (s : bst) : bst :=
    fold_left (fun s x => log s (EvClose (h_id (snd x)))) (b_cache s) s.
End Brokers.

(** Model of simple_producer.go and producer.go.

    Go byte slices handed in by the caller are whole buffers of a heap (a list of byte
    strings, indexed by position); slices into the middle of another slice are not
    modelled.  The clock, the negotiated version, the correlation id and what the
    network does come with each operation ([net]).  Logging is left out. *)
From Verif Require Import Base Prims Records Requests Responses.

(** ** The network side of one flush *)
(** What becomes of p.leader.RequestAndGet(produceRequest), broker.go:239-263:
    [NFail e]: no connection could be opened, nothing was written;
    [NSend ver corr ts got reply]: the request was encoded for version [ver] with
    correlation id [corr] at time [ts] (time.Now().UnixMilli()); [got] tells if it
    reached the broker; [reply] are the bytes read or the error of writing or reading. *)
Inductive net :=
| NFail (e : err)
| NSend (ver corr ts : Z) (got : bool) (reply : res bytes).

(** ** SimpleProducer *)
(** simple_producer.go:14-35 and config.go:191-222, the fields that matter: [g_leader] is
    false if p.leader is nil, [g_owned] is true if p.parent is nil *)
Record scfg := mkSC {
  g_topic : bytes; g_part : Z; g_client : bytes; g_acks : Z; g_timeout : Z; g_magic : Z; g_codec : Z;
  g_max : Z; g_leader : bool; g_owned : bool }.

(** a queued Record: the key is the caller's slice, the value a copy (139-149) *)
Record prec := mkP { p_key : option nat; p_val : bytes }.
(** the mutable part: p.records, p.closed (set exactly when p.once has run: Close is the
    only user of both) and whether the goroutine of line 116 still runs *)
Record sp := mkSP { s_recs : list prec; s_closed : bool; s_timer : bool }.
(** byte buffers of the caller; slices are numbers of buffers *)
Definition heap := list bytes.
(** the contents of a buffer *)
Definition buf (h : heap) (r : nat) : bytes := nth r h [].
(** the contents of a slice; nil is empty *)
Definition oget (h : heap) (r : option nat) : bytes := match r with Some r => buf h r | None => [] end.
(** key and value of a message *)
Definition message := (option bytes * bytes)%type.
(** what a stored record says now: the value was copied, the key is the buffer of the caller *)
Definition deref (h : heap) (p : prec) : message := (option_map (buf h) (p_key p), p_val p).

(** one execution of flush (194-225): the messages in the batch, what the broker got
    (version, correlation id, time stamp, bytes), the error returned *)
Record attempt := mkAtt { t_msgs : list message; t_wire : option (Z * Z * Z * bytes); t_err : option err }.

Section Zip.
Variable zip : Z -> bytes -> res bytes.

(** simple_producer.go:197-214: the produce request of a batch *)
Definition produce_body (g : scfg) (ts : Z) (ms : list message) : rbody :=
  QProduce None (g_acks g) (g_timeout g)
    [(g_topic g, [(g_part g, [createRecordBatch (g_magic g) (g_codec g) ts (map (fun m => new_record (fst m) (snd m)) ms)])])].

(** simple_producer.go:194-225 flush.  A nil leader is dereferenced by RequestAndGet
    (broker.go:240 ff.).  The batch is encoded when the request is, so keys are read from
    the caller's buffers now. *)
Definition sflush (g : scfg) (h : heap) (n : net) (recs : list prec) : res attempt :=
  if negb (g_leader g) then Panic else
  let ms := map (deref h) recs in
  match n with
  | NFail e => Ok (mkAtt ms None (Some e))
  | NSend ver corr ts got reply =>
      rbind (prepare zip corr ver (new_request (Some (g_client g)) (produce_body g ts ms))) (fun w =>
      let wire := if got then Some (ver, corr, ts, fst w) else None in
      match reply with
      | Ok raw => match answer 0 ver raw with
                  | Ok _ => Ok (mkAtt ms wire None)
                  | Err e => Ok (mkAtt ms wire (Some e))
                  | Panic => Panic | Unspec => Unspec
                  end
      | Err e => Ok (mkAtt ms wire (Some e))
      | Panic => Panic | Unspec => Unspec
      end)
  end.

(** simple_producer.go:131-158 AddMessage, under p.lock; the error of the flush is dropped (155) *)
Definition sadd (g : scfg) (h : heap) (n : net) (k v : option nat) (s : sp) : res (sp * option err * option attempt) :=
  if s_closed s then Ok (s, Some EClosed, None)
  else
    let recs := s_recs s ++ [mkP k (oget h v)] in
    if g_max g <=? zlen recs
    then rbind (sflush g h n recs) (fun a => Ok (mkSP [] (s_closed s) (s_timer s), None, Some a))
    else Ok (mkSP recs (s_closed s) (s_timer s), None, None).

(** simple_producer.go:160-171 Flush, under p.lock *)
Definition sflushop (g : scfg) (h : heap) (n : net) (s : sp) : res (sp * option err * option attempt) :=
  match s_recs s with
  | [] => Ok (s, None, None)
  | recs => rbind (sflush g h n recs) (fun a => Ok (mkSP [] (s_closed s) (s_timer s), t_err a, Some a))
  end.

(** simple_producer.go:228-248 Close, under p.once and p.lock.  p.records is not cleared (235); the handle
    of the leader is closed (240), which does not keep it from reopening. *)
Definition sclose (g : scfg) (h : heap) (n : net) (s : sp) : res (sp * option err * option attempt) :=
  if s_closed s then Ok (s, None, None)
  else
    let fin (a : option attempt) :=
      if g_owned g && negb (g_leader g) then Panic else Ok (mkSP (s_recs s) true (s_timer s), None, a) in
    match s_recs s with
    | [] => fin None
    | recs => rbind (sflush g h n recs) (fun a => fin (Some a))
    end.

(** simple_producer.go:116-126: the timer goroutine.  A tick calls Flush and drops its error.  Once
    closeChan is closed the goroutine returns, but as long as ticks are pending, select
    may prefer them: a tick after Close is possible, and so is one that was waiting for
    the lock while Close ran. *)
Definition stick (g : scfg) (h : heap) (n : net) (s : sp) : res (sp * option err * option attempt) :=
  if s_timer s
  then rbind (sflushop g h n s) (fun x => Ok (fst (fst x), None, snd x))
  else Ok (s, None, None).
(** simple_producer.go:116-126: the goroutine ends when the producer is closed *)
Definition sexit (s : sp) : sp := mkSP (s_recs s) (s_closed s) (s_timer s && negb (s_closed s)).

(** simple_producer.go:37-64 createLeader, once the brokers are there: [find] is what findLeader returns,
    [conn] the error of NewBroker (55) for that leader, if any.  Leader -1 without an error
    gives a nil handle and a nil error (49-52): [Ok false]. *)
Definition createLeader (find : res Z) (conn : option err) : res bool :=
  match find with
  | Ok id => if id =? -1 then Ok false else match conn with Some e => Err e | None => Ok true end
  | Err e => Err e | Panic => Panic | Unspec => Unspec
  end.
(** simple_producer.go:66-129 NewSimpleProducer without a leader in the context, for a valid configuration:
    the producer and whether p.leader is a handle *)
Definition sp0 : sp := mkSP [] false true.
(** simple_producer.go:67-129 NewSimpleProducer *)
Definition newSimpleProducer (find : res Z) (conn : option err) : res (bool * sp) :=
  match createLeader find conn with
  | Ok b => Ok (b, sp0) | Err e => Err (EWrap e) | Panic => Panic | Unspec => Unspec
  end.

(** Operations on one simple producer; each runs under the lock, so any interleaving of
    goroutines is a sequence of them.  [OWrite r i x]: the caller sets byte i of buffer r. *)
Inductive sop :=
| OAdd (k v : option nat) | OFlush | OTick | OExit | OClose | OWrite (r i : nat) (x : Z).

(** the entry with number i is replaced *)
Fixpoint set_nth {A} (i : nat) (x : A) (l : list A) : list A :=
  match l, i with
  | [], _ => []
  | _ :: t, O => x :: t
  | y :: t, S i => y :: set_nth i x t
  end.
(** the caller changes one byte of a buffer *)
Definition write (h : heap) (r i : nat) (x : Z) : heap := set_nth r (set_nth i x (buf h r)) h.

(** what was called, with which buffer contents, and what came of it *)
Record event := mkEv { e_op : sop; e_key : option bytes; e_val : bytes; e_ret : option err; e_att : option attempt }.
(** buffers and producer *)
Definition sstate := (heap * sp)%type.
(** one operation (simple_producer.go:116-248) or a change of a buffer *)
Definition sstep (g : scfg) (st : sstate) (on : sop * net) : res (sstate * event) :=
  let '(h, s) := st in let '(o, n) := on in
  let out (k : option bytes) (v : bytes) (x : sp * option err * option attempt) :=
    Ok ((h, fst (fst x)), mkEv o k v (snd (fst x)) (snd x)) in
  match o with
  | OAdd k v => rbind (sadd g h n k v s) (out (option_map (buf h) k) (oget h v))
  | OFlush => rbind (sflushop g h n s) (out None [])
  | OTick => rbind (stick g h n s) (out None [])
  | OExit => out None [] (sexit s, None, None)
  | OClose => rbind (sclose g h n s) (out None [])
  | OWrite r i x => Ok ((write h r i x, s), mkEv o None [] None None)
  end.
(** a sequence of operations *)
Fixpoint srun (g : scfg) (st : sstate) (ops : list (sop * net)) : res (sstate * list event) :=
  match ops with
  | [] => Ok (st, [])
  | o :: ops' => rbind (sstep g st o) (fun x => rbind (srun g (fst x) ops') (fun y => Ok (fst y, snd x :: snd y)))
  end.

(** ** Producer *)
(** github.com/aviddiviner/go-murmur MurmurHash2, an external library; written after the
    published algorithm (A. Appleby): all arithmetic on uint32 *)
Definition mm : Z := 1540483477. (* 0x5bd1e995 *)
Definition mix (k : Z) : Z :=
  let k := uint 32 (k * mm) in let k := Z.lxor k (Z.shiftr k 24) in uint 32 (k * mm).
(** go-murmur (external library): the loop over four bytes and the last bytes *)
Fixpoint murmur_loop (h : Z) (d : bytes) : Z :=
  match d with
  | a :: b :: c :: e :: t =>
      let k := Z.lor (Z.lor (Z.lor a (Z.shiftl b 8)) (Z.shiftl c 16)) (Z.shiftl e 24) in
      murmur_loop (Z.lxor (uint 32 (h * mm)) (mix k)) t
  | [a; b; c] => uint 32 (Z.lxor (Z.lxor (Z.lxor h (Z.shiftl c 16)) (Z.shiftl b 8)) a * mm)
  | [a; b] => uint 32 (Z.lxor (Z.lxor h (Z.shiftl b 8)) a * mm)
  | [a] => uint 32 (Z.lxor h a * mm)
  | [] => h
  end.
(** MurmurHash2 of go-murmur (external library), called at producer.go:140 *)
Definition MurmurHash2 (d : bytes) (seed : Z) : Z :=
  let h := murmur_loop (Z.lxor seed (uint 32 (zlen d))) d in
  let h := Z.lxor h (Z.shiftr h 13) in
  let h := uint 32 (h * mm) in
  Z.lxor h (Z.shiftr h 15).

(** producer.go:18-31.  Simple producers are numbered in order of creation and never
    forgotten ([m_sps], with partition and node id of the leader handle of each);
    [m_meta] is p.topicMeta: partition id, error code, leader; [m_cur] is
    p.currentProducer, [m_pids] p.pidToSimpleProducers, [m_lead] the keys of
    p.leaderBrokersMapping. *)
Record psp := mkX { x_part : Z; x_leader : Z; x_sp : sp }.
(** producer.go:18-31 Producer *)
Record mp := mkMP {
  m_heap : heap; m_meta : list (Z * (Z * Z)); m_cur : nat; m_pids : list (Z * nat); m_lead : list Z; m_sps : list psp }.

(** p.config, without the partition *)
Variable g : scfg.
(** producer.go:99, 160: the configuration handed to a simple producer *)
Definition cfg_of (owned : bool) (pid : Z) : scfg :=
  mkSC (g_topic g) pid (g_client g) (g_acks g) (g_timeout g) (g_magic g) (g_codec g) (g_max g) true owned.
(** the current producers are created without a parent (99: context.Background()), those
    of keyed messages with one (159) *)
Definition owned (m : mp) (i : nat) : bool := negb (existsb (fun x => Nat.eqb (snd x) i) (m_pids m)).

(** simple producer number i changes *)
Definition set_sp (m : mp) (i : nat) (s : sp) : mp :=
  match nth_error (m_sps m) i with
  | Some x => mkMP (m_heap m) (m_meta m) (m_cur m) (m_pids m) (m_lead m) (set_nth i (mkX (x_part x) (x_leader x) s) (m_sps m))
  | None => m
  end.
(** run an operation of simple producer i *)
Definition on_sp (f : scfg -> heap -> sp -> res (sp * option err * option attempt)) (m : mp) (i : nat)
  : res (mp * option err * option attempt) :=
  match nth_error (m_sps m) i with
  | Some y => rbind (f (cfg_of (owned m i) (x_part y)) (m_heap m) (x_sp y)) (fun x => Ok (set_sp m i (fst (fst x)), snd (fst x), snd x))
  | None => Panic
  end.

(** reading a Go map *)
Definition assoc {A} (l : list (Z * A)) (k : Z) : option A := option_map snd (find (fun x => fst x =? k) l).

(** producer.go:120-130 getLeaderID *)
Definition getLeaderID (m : mp) (pid : Z) : res Z :=
  match assoc (m_meta m) pid with
  | Some (ec, leader) => if ec =? 0 then Ok leader else Err (match code_error ec with Some e => e | None => ENotFound end)
  | None => Err ENotFound
  end.

(** producer.go:132-166 getSimpleProducer; [conn] tells if a handle to the leader can be created (152) *)
Definition getSimpleProducer (m : mp) (key : option nat) (conn : option err) : res (mp * nat) :=
  match key with
  | None => Ok (m, m_cur m)
  | Some r =>
      if zlen (m_meta m) =? 0 then Panic else
      let pid := sint 32 (MurmurHash2 (buf (m_heap m) r) 0 mod uint 32 (zlen (m_meta m))) in
      match assoc (m_pids m) pid with
      | Some i => Ok (m, i)
      | None =>
          match getLeaderID m pid with
          | Ok leader =>
              let known := existsb (Z.eqb leader) (m_lead m) in
              match (if known then None else conn) with
              | Some e => Err e
              | None =>
                  let i := length (m_sps m) in
                  Ok (mkMP (m_heap m) (m_meta m) (m_cur m) ((pid, i) :: m_pids m)
                        (if known then m_lead m else leader :: m_lead m) (m_sps m ++ [mkX pid leader sp0]), i)
              end
          | Err e => Err e | Panic => Panic | Unspec => Unspec
          end
      end
  end.

(** What the other goroutines do meanwhile:
    [EMeta]: the refresh stores new metadata (90) and picks among the partitions without
      error (92-98), which panics if there is none;
    [ESwap pid leader n]: the refresh has created a simple producer of partition pid
      and makes it the current one, closing the older one, under p.lock (104-114);
    [EClose i n]: Close (188-199) closes simple producer i;
    [ETick i n], [EExit i]: timer of simple producer i;
    [EGet key conn], [EAdd i n k v]: the two halves of another AddMessage;
    [EWrite]: the caller changes a buffer. *)
Inductive mev :=
| EMeta (meta : list (Z * (Z * Z))) | ESwap (pid leader : Z) (n : net) | EClose (i : nat) (n : net)
| ETick (i : nat) (n : net) | EExit (i : nat) | EGet (key : option nat) (conn : option err)
| EAdd (i : nat) (n : net) (k v : option nat) | EWrite (r i : nat) (x : Z).

(** the first component of a result *)
Definition first_of {A B C} (x : res (A * B * C)) : res A := rbind x (fun y => Ok (fst (fst y))).
(** one event of another goroutine *)
Definition mstep (m : mp) (e : mev) : res mp :=
  match e with
  | EMeta meta =>
      if existsb (fun x => fst (snd x) =? 0) meta
      then Ok (mkMP (m_heap m) meta (m_cur m) (m_pids m) (m_lead m) (m_sps m)) else Panic
  | ESwap pid leader n =>
      let old := m_cur m in
      first_of (on_sp (fun g h s => sclose g h n s)
        (mkMP (m_heap m) (m_meta m) (length (m_sps m)) (m_pids m) (m_lead m) (m_sps m ++ [mkX pid leader sp0])) old)
  | EClose i n => first_of (on_sp (fun g h s => sclose g h n s) m i)
  | ETick i n => first_of (on_sp (fun g h s => stick g h n s) m i)
  | EExit i => first_of (on_sp (fun g h s => Ok (sexit s, None, None)) m i)
  | EGet key conn =>
      match getSimpleProducer m key conn with Ok x => Ok (fst x) | Err _ => Ok m | Panic => Panic | Unspec => Unspec end
  | EAdd i n k v => first_of (on_sp (fun g h s => sadd g h n k v s) m i)
  | EWrite r i x => Ok (mkMP (write (m_heap m) r i x) (m_meta m) (m_cur m) (m_pids m) (m_lead m) (m_sps m))
  end.
(** a sequence of such events *)
Fixpoint mrun (m : mp) (es : list mev) : res mp :=
  match es with [] => Ok m | e :: es' => rbind (mstep m e) (fun m' => mrun m' es') end.

(** One round of the loop 172-183: events before getSimpleProducer, its connection,
    events between it and AddMessage, the network. *)
Record around := mkRound { a_before : list mev; a_conn : option err; a_between : list mev; a_net : net }.
(** producer.go:171-185 AddMessage; the result tells also which simple producer took the message, its
    partition and leader *)
Record taken := mkTaken { k_sp : nat; k_part : Z; k_leader : Z }.
(** producer.go:171-185 AddMessage: the three tries *)
Fixpoint add_loop (m : mp) (k v : option nat) (rs : list around) : res (mp * option err * option taken) :=
  match rs with
  | [] => Ok (m, None, None)
  | r :: rs' =>
      rbind (mrun m (a_before r)) (fun m1 =>
      match getSimpleProducer m1 k (a_conn r) with
      | Ok (m2, i) =>
          rbind (mrun m2 (a_between r)) (fun m3 =>
          rbind (on_sp (fun g h s => sadd g h (a_net r) k v s) m3 i) (fun x =>
          match snd (fst x) with
          | Some EClosed => add_loop (fst (fst x)) k v rs'
          | Some e => Ok (fst (fst x), Some e, None)
          | None => Ok (fst (fst x), None, option_map (fun y => mkTaken i (x_part y) (x_leader y)) (nth_error (m_sps m3) i))
          end))
      | Err e => Ok (m1, Some e, None)
      | Panic => Panic | Unspec => Unspec
      end)
  end.
(** producer.go:171-185 AddMessage *)
Definition addMessage (m : mp) (k v : option nat) (r1 r2 r3 : around) := add_loop m k v [r1; r2; r3].

(** producer.go:36-79 NewProducer, after the first successful refresh, which chose partition [pid] *)
Definition new_mp (h : heap) (meta : list (Z * (Z * Z))) (pid leader : Z) : mp := mkMP h meta 0 [] [] [mkX pid leader sp0].
End Zip.

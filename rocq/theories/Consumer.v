(** Model of simple_consumer.go: where a partition consumer starts, its fetch loop, and
    the offsets it commits. *)
From Verif Require Import Base Wire Responses Records Fetch.

(** ** Where to start *)

(** simple_consumer.go:207-212: the time asked for in an offsets request *)
Definition ask (fromBeginning : bool) : Z := if fromBeginning then -2 else -1.

(** offset_response.go:17-25 PartitionOffset.GetOffset *)
Definition getPartitionOffset (p : Z * (Z * (list Z * (Z * Z)))) : res Z :=
  match fst (snd (snd p)) with
  | [] => Ok (snd (snd (snd (snd p))))
  | [o] => Ok o
  | _ => Panic
  end.

(** a Go map of slices: the value stored for a key, the zero value (nil) if there is none *)
Fixpoint mget {A} (k : bytes) (m : list (bytes * list A)) : list A :=
  match m with
  | [] => []
  | (k', v) :: m' => if beqb k' k then v else mget k m'
  end.

(** simple_consumer.go:206-222 getOffset, given what requestOffsets (broker.go:360-368)
    returned.  On an error the caller is left with offset -1. *)
Definition getOffset (topic : bytes) (answer : res response) : res Z :=
  match answer with
  | Panic => Panic
  | Unspec => Unspec
  | Err e => Err e
  | Ok (ROffsets _ _ ts as r) =>
      match response_error r with
      | Ok (Some e) => Err e
      | Ok None => match mget topic ts with [] => Panic | p :: _ => getPartitionOffset p end
      | Err e => Err e | Panic => Panic | Unspec => Unspec
      end
  | Ok _ => Panic
  end.

(** simple_consumer.go:262-272: the committed offset found in an answer, if any *)
Fixpoint find_part (pid : Z) (ps : list (Z * (Z * (bytes * Z)))) : option Z :=
  match ps with
  | [] => None
  | (p, (o, _)) :: ps' => if p =? pid then (if 0 <=? o then Some o else None) else find_part pid ps'
  end.
(** simple_consumer.go:260-272 *)
Fixpoint find_committed (topic : bytes) (pid : Z) (ts : list (bytes * list (Z * (Z * (bytes * Z))))) (cur : Z) : Z :=
  match ts with
  | [] => cur
  | (t, ps) :: ts' =>
      find_committed topic pid ts'
        (if beqb t topic then match find_part pid ps with Some o => o | None => cur end else cur)
  end.

(** the result of a retry loop fed with the answers of the attempts it makes *)
Inductive looped (A : Type) :=
| Done (a : A)        (* an attempt succeeded *)
| Halted (a : A)      (* c.stop was seen *)
| Running             (* all the answers are used up: still retrying *)
| Crashed.
Arguments Done {A} a. Arguments Halted {A} a. Arguments Running {A}. Arguments Crashed {A}.

(** simple_consumer.go:151-178 getLeaderBroker.  [find]: what findLeader returned;
    [conn]: whether NewBroker succeeded for that broker; [cached]: whether
    c.brokers.brokers holds a handle for it, which line 171 dereferences. *)
Record leaderTry := mkLT { lt_find : res Z; lt_conn : bool; lt_cached : bool }.
(** simple_consumer.go:151-178 getLeaderBroker *)
Definition getLeaderBroker (t : leaderTry) : res Z :=
  match lt_find t with
  | Ok id => if id =? -1 then Err ENoLeader
             else if lt_conn t then Ok id
             else if lt_cached t then Err EConn else Panic
  | Err e => Err (EWrap e)
  | Panic => Panic
  | Unspec => Unspec
  end.

(** simple_consumer.go:357-364 and 484-491: [for !c.stop { getLeaderBroker }]; [None]
    stands for a round that finds c.stop set *)
Fixpoint leaderLoop (ts : list (option leaderTry)) : looped unit :=
  match ts with
  | [] => Running
  | None :: _ => Halted tt
  | Some t :: ts' =>
      match getLeaderBroker t with
      | Ok _ => Done tt
      | Err _ => leaderLoop ts'
      | Panic | Unspec => Crashed
      end
  end.

(** simple_consumer.go:224-274 getCommitedOffet; line 249: the loop does not look at
    c.stop.  The error for an unknown offsets storage is ignored by Consume. *)
Fixpoint committedLoop (topic : bytes) (pid : Z) (answers : list (res response)) (cur : Z) : looped Z :=
  match answers with
  | [] => Running
  | Err _ :: rest => committedLoop topic pid rest cur
  | Ok (ROffsetFetch _ ts) :: _ => Done (find_committed topic pid ts cur)
  | _ :: _ => Crashed
  end.
(** simple_consumer.go:224-274 getCommitedOffet *)
Definition getCommitedOffet (storage : Z) (topic : bytes) (pid : Z) (answers : list (res response)) (cur : Z) : looped Z :=
  if (storage =? 0) || (storage =? 1) then committedLoop topic pid answers cur else Done cur.

(** simple_consumer.go:194-203: the loop of initOffset *)
Fixpoint initLoop (topic : bytes) (answers : list (option (res response))) (cur : Z) : looped Z :=
  match answers with
  | [] => Running
  | None :: _ => Halted cur
  | Some a :: rest =>
      match getOffset topic a with
      | Ok o => Done o
      | Err _ => initLoop topic rest (-1)
      | Panic | Unspec => Crashed
      end
  end.

(** the fields of ConsumerConfig (config.go:85-106) and of the consumer that do not change *)
Record ccfg := mkCC {
  k_topic : bytes; k_part : Z;
  k_group : bool;        (* config.GroupID is not empty *)
  k_belongs : bool;      (* belongTO is not nil *)
  k_storage : Z          (* config.OffsetsStorage *) }.

(** simple_consumer.go:342-398 Consume up to the start of consumeLoop: the offset it
    will fetch from and fromBeginning, which decides where a later reset goes;
    [Halted]: c.stop was set.  Line 352-364 leader, 370-372 committed offset,
    375-378 initOffset. *)
Definition startOffset (c : ccfg) (from0 : bool) (start : Z) (leaders : list (option leaderTry))
    (committed : list (res response)) (offsets : list (option (res response))) : looped (Z * bool) :=
  match leaderLoop leaders with
  | Running => Running
  | Crashed => Crashed
  | Halted _ => Halted (start, from0)
  | Done _ =>
      let special (o : Z) := (o =? -1) || (o =? -2) in
      let got := if k_group c && special start then getCommitedOffet (k_storage c) (k_topic c) (k_part c) committed start
                 else Done start in
      match got with
      | Running => Running
      | Crashed => Crashed
      | Halted o => Halted (o, from0)
      | Done o =>
          if special o then
            let from := o =? -2 in
            match initLoop (k_topic c) offsets o with
            | Running => Running
            | Crashed => Crashed
            | Halted o' => Halted (o', from)
            | Done o' => Done (o', from)
            end
          else Done (o, from0)
      end
  end.

(** ** The fetch loop and the commits *)

(** simple_consumer.go:26-33 fields.  [c_pend]: None at the head of consumeLoop, Some
    events while consumeMessages works on a response; [c_adv]: a message was sent to
    the caller and line 501 has not run yet; [c_fly]: CommitOffset calls under way, each
    with the offset captured at line 328 and the offset in its request once that is
    built. *)
Record cst := mkC {
  c_off : Z; c_from : bool; c_max : Z; c_com : Z; c_cancel : bool; c_stop : bool; c_live : bool;
  c_pend : option (list event); c_adv : option Z; c_fly : list (Z * option Z) }.

(** what can be seen from outside: fetch requests, messages handed out, the moves of
    the position after an error (time asked for, resulting offset), commit requests *)
Inductive tev :=
| TFetch (o max : Z)
| TMsg (topic : bytes) (pid : Z) (m : Message)
| TReset (time : Z) (o : Z)
| TCommit (o : Z) (ok : bool).

(** what may happen next: a step of the code or of its environment *)
Inductive cop :=
| OFetch (r : res (list event))     (* lines 410-430: request and decoded response *)
| ONext (answer : res response) (leaders : list (option leaderTry))
                                    (* one round of consumeMessages, with the answers it may need *)
| OAdvance                          (* line 501 *)
| OCancel | OStop                   (* Stop, lines 279 and 281 *)
| OAbort                            (* lines 460-461 and 498-499: the context is done *)
| OCommit                           (* CommitOffset up to line 328 *)
| OBuild (i : nat)                  (* commitOffset line 309: reads c.offset *)
| OSent (i : nat) (member : bool) (ok : bool).
                                    (* the request of a commit and its outcome;
                                       member: the group consumer has a member id *)

(** offset changes *)
Definition set_off (s : cst) (o : Z) : cst :=
  mkC o (c_from s) (c_max s) (c_com s) (c_cancel s) (c_stop s) (c_live s) (c_pend s) (c_adv s) (c_fly s).
(** the size of a fetch changes *)
Definition set_max (s : cst) (m : Z) : cst :=
  mkC (c_off s) (c_from s) m (c_com s) (c_cancel s) (c_stop s) (c_live s) (c_pend s) (c_adv s) (c_fly s).
(** the offset to commit changes *)
Definition set_com (s : cst) (o : Z) : cst :=
  mkC (c_off s) (c_from s) (c_max s) o (c_cancel s) (c_stop s) (c_live s) (c_pend s) (c_adv s) (c_fly s).
(** the flags of the consumer change *)
Definition set_flags (s : cst) (ca st li : bool) : cst :=
  mkC (c_off s) (c_from s) (c_max s) (c_com s) ca st li (c_pend s) (c_adv s) (c_fly s).
(** the answer under way changes *)
Definition set_pend (s : cst) (p : option (list event)) (a : option Z) : cst :=
  mkC (c_off s) (c_from s) (c_max s) (c_com s) (c_cancel s) (c_stop s) (c_live s) p a (c_fly s).
(** the commits under way change *)
Definition set_fly (s : cst) (l : list (Z * option Z)) : cst :=
  mkC (c_off s) (c_from s) (c_max s) (c_com s) (c_cancel s) (c_stop s) (c_live s) (c_pend s) (c_adv s) l.

(** simple_consumer.go:466-494: what consumeMessages does with an error.  Closing the
    leader's connection (469-470, 482) has no effect on this state.
    line 472: == compares with the very error value, lines 476, 481, 492: errors.Is. *)
Definition onError (c : ccfg) (s : cst) (e : err) (answer : res response) (leaders : list (option leaderTry)) : res (cst * list tev) :=
  let s := match e with EMaxBytesTooSmall => set_max s (sint 32 (2 * c_max s)) | _ => s end in
  let s := set_pend s None None in
  match err_root e with
  | EKafka 1 =>
      match getOffset (k_topic c) answer with
      | Ok o => Ok (set_off s o, [TReset (ask (c_from s)) o])
      | Err _ => Ok (set_off s (-1), [TReset (ask (c_from s)) (-1)])
      | Panic => Panic
      | Unspec => Unspec
      end
  | EKafka 6 =>
      match leaderLoop leaders with
      | Done _ | Running => Ok (s, [])
      | Halted _ => Ok (set_flags s (c_cancel s) true (c_live s), [])
      | Crashed => Panic
      end
  | _ => Ok (s, [])
  end.

(** the commit with number i changes *)
Fixpoint set_nth_fly (i : nat) (x : Z * option Z) (l : list (Z * option Z)) : list (Z * option Z) :=
  match l, i with
  | [], _ => []
  | _ :: t, O => x :: t
  | h :: t, S k => h :: set_nth_fly k x t
  end.
(** the commit with number i ends *)
Fixpoint drop_nth (i : nat) (l : list (Z * option Z)) : list (Z * option Z) :=
  match l, i with
  | [], _ => []
  | _ :: t, O => t
  | h :: t, S k => h :: drop_nth k t
  end.

(** one step; an operation that is not possible in the state changes nothing.
    Simplification for error 6 with all answers used up: the loop is taken as ended;
    only fetching could follow. *)
Definition cstep (c : ccfg) (s : cst) (op : cop) : res (cst * list tev) :=
  match op with
  | OFetch r =>
      match c_live s, c_pend s with
      | true, None =>
          if c_stop s then Ok (set_flags s (c_cancel s) (c_stop s) false, [])      (* 408 *)
          else
          match r with
          | Ok evs => Ok (set_pend s (Some evs) None, [TFetch (c_off s) (c_max s)])
          | Err ECanceled => Ok (set_flags s (c_cancel s) (c_stop s) false, [TFetch (c_off s) (c_max s)])  (* 418-420 *)
          | Err _ => Ok (s, [TFetch (c_off s) (c_max s)])                            (* 421-423 *)
          | Panic => Panic
          | Unspec => Unspec
          end
      | _, _ => Ok (s, [])
      end
  | ONext answer leaders =>
      match c_pend s, c_adv s with
      | Some [], None => Ok (set_pend s None None, [])                               (* 464-466 *)
      | Some (EvMsg t p m :: rest), None =>
          Ok (set_pend s (Some rest) (Some (sint 64 (m_offset m + 1))), [TMsg t p m])  (* 500 *)
      | Some (EvErr e :: _), None => onError c s e answer leaders
      | _, _ => Ok (s, [])
      end
  | OAdvance =>
      match c_adv s with
      | Some o => Ok (set_off (set_pend s (c_pend s) None) o, [])
      | None => Ok (s, [])
      end
  | OCancel => Ok (set_flags s true (c_stop s) (c_live s), [])
  | OStop => Ok (set_flags s (c_cancel s) (c_cancel s || c_stop s) (c_live s), [])
  | OAbort =>
      match c_pend s, c_adv s with
      | Some _, None => if c_cancel s then Ok (set_pend s None None, []) else Ok (s, [])
      | _, _ => Ok (s, [])
      end
  | OCommit =>
      if c_off s =? c_com s then Ok (s, [])                                           (* 324-327 *)
      else if k_belongs c then Ok (set_fly s (c_fly s ++ [(c_off s, Some (c_off s))]), [])
      else if k_group c then Ok (set_fly s (c_fly s ++ [(c_off s, None)]), [])
      else Ok (s, [])
  | OBuild i =>
      match nth_error (c_fly s) i with
      | Some (cap, None) => Ok (set_fly s (set_nth_fly i (cap, Some (c_off s)) (c_fly s)), [])
      | _ => Ok (s, [])
      end
  | OSent i member ok =>
      match nth_error (c_fly s) i with
      | Some (cap, Some v) =>
          let s' := set_fly s (drop_nth i (c_fly s)) in
          if k_belongs c && (negb member || (v <? 0)) then Ok (s', [])                (* group_consumer.go:328-335 *)
          else Ok (if ok then set_com s' cap else s', [TCommit v ok])
      | _ => Ok (s, [])
      end
  end.

(** a sequence of steps *)
Fixpoint crun (c : ccfg) (s : cst) (ops : list cop) : res (cst * list tev) :=
  match ops with
  | [] => Ok (s, [])
  | op :: ops' =>
      rbind (cstep c s op) (fun r1 =>
      rbind (crun c (fst r1) ops') (fun r2 => Ok (fst r2, snd r1 ++ snd r2)))
  end.

(** the state in which Consume starts consumeLoop; offsetCommited starts as 0 *)
Definition cinit (off : Z) (from : bool) (max : Z) : cst := mkC off from max 0 false false true None None [].

(** ** The connection after an error
    fetch_response.go:509-551 streamDecode sends the error event first (540) and only
    then, in its deferred function (519-521), reads what is left of the response.  The
    consumer is already free to go on (simple_consumer.go:442-451 waits for
    consumeMessages only).  This is the decoder up to the moment the last event is out:
    the events and the connection as the next request may find it. *)
Section Undrained.
  Variable unzip zip : Z -> bytes -> res bytes.
  (** fetch_response.go:509-551: the decoder run on a connection *)
  Definition streamEmit (version : Z) (start : Z) (length : Z) (conn : stream) : res (list event * dst) :=
    let s0 := mkD conn length 0 length start false [] in
    match decodeHeader version s0 with
    | DPanic => Panic | DUnspec => Unspec
    | DErr e s => Ok (d_out s, s)
    | DOk n s =>
        match dec_n (Z.to_nat n) (decodeResponses unzip zip version) s with
        | DPanic => Panic | DUnspec => Unspec
        | DOk _ s' => Ok (d_out s', drain s')      (* the channel is closed after the drain *)
        | DErr e s' => Ok (d_out s' ++ [EvErr e], s')
        end
    end.
End Undrained.

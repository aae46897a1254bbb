(** Model of group_consumer.go: joining, syncing, heartbeats, commits and closing. *)
From Verif Require Import Base Wire Group Assign Responses Fetch ErrorCode.

(** ** One membership
    A session is one call of consumeWithoutHeartBeat (group_consumer.go:497-540): the
    goroutine that joins (505-515 with joinAndSync 262-305) and the rest of the call,
    which waits for it and starts the partition consumers. *)
Inductive lphase :=
| PHead                         (* the heads of the two loops, 263 and 506 *)
| PJoin                         (* 274-278 *)
| PWait                         (* in requestJoinGroup, 186 *)
| PSet (m : bytes) (ldr : bool) (* between 214 and 215 *)
| PSync                         (* 282-288 *)
| PSyncWait                     (* in requestSyncGroup, 237 *)
| PDone.                        (* joinedChan <- true, 514 *)
Inductive mphase :=
| MWait                         (* 517-521 *)
| MStart (l : list (bytes * Z)) (* 526-537, partition consumers left to start *)
| MIdle.                        (* returned *)
Record session := mkS { s_loop : lphase; s_main : mphase }.

(** a commitOffset call under way (group_consumer.go:327-358): the check of line 328 passed; line 342 read
    the member id *)
Inductive centry := CChecked | CRead (m : bytes).

(** The fields of GroupConsumer (group_consumer.go:18-47) used here.  [g_coord]: coordinator is not nil;
    [g_chan]: closeChan holds a value; [g_sc]: simpleConsumers; [g_wg]: the counter of wg. *)
Record gst := mkG {
  g_member : bytes; g_gen : Z; g_leader : bool; g_avail : bool; g_coord : bool;
  g_joined : bool; g_closed : bool; g_chan : bool;
  g_sc : list (bytes * Z); g_wg : Z; g_sess : list session; g_com : list centry }.

(** What happens on the wire and what the loop reports.  The number is the session. *)
Inductive gev :=
| GFound (i : nat)                                (* the coordinator was looked up *)
| GJoin (i : nat) (member : bytes)                (* join request *)
| GJoined (i : nat) (gen : Z) (member : bytes)    (* its answer was taken over *)
| GSync (i : nat) (gen : Z) (member : bytes)      (* sync request *)
| GSynced (i : nat) (parts : list (bytes * Z))    (* its answer was taken over *)
| GFailed (i : nat) (e : err)                     (* join or sync answered with an error or not at all *)
| GBad (i : nat)                                  (* the assignment in the sync answer is unreadable *)
| GRet (i : nat) (e : option err)                 (* joinAndSync returned *)
| GBeat (gen : Z) (member : bytes)
| GCommit (gen : Z) (member : bytes)
| GStarted (part : bytes * Z)                     (* Consume of a partition consumer started *)
| GClosing                                        (* AwaitClose called *)
| GLeft (member : bytes).

(** what may happen next: a step of the code or of its environment *)
Inductive gop :=
| OLook (i : nat) (ans : res unit)
| OJoin (i : nat)
| OJoinAns (i : nat) (ans : res (Z * (bytes * bytes))) (txt : bool)
    (* generation, member, leader; txt: the error text names a connection problem (197-206) *)
| OSet (i : nat)
| OSync (i : nat)
| OSyncAns (i : nat) (ans : res bytes)
| OTakeClose (i : nat) | OTakeJoined (i : nat) | OStartOne (i : nat)
| OBeat
| OCheck | ORead (k : nat) | OSend (k : nat)
| ORestart
| OClose
| OLeave (ans : res unit).

(** generationID, memberID, ifLeader (group_consumer.go:191, 212-222) *)
Definition set_id (g : gst) (m : bytes) (n : Z) (l : bool) : gst :=
  mkG m n l (g_avail g) (g_coord g) (g_joined g) (g_closed g) (g_chan g) (g_sc g) (g_wg g) (g_sess g) (g_com g).
(** coordinatorAvailable, coordinator (group_consumer.go:143, 194-207, 246, 273) *)
Definition set_avail (g : gst) (a c : bool) : gst :=
  mkG (g_member g) (g_gen g) (g_leader g) a c (g_joined g) (g_closed g) (g_chan g) (g_sc g) (g_wg g) (g_sess g) (g_com g).
(** joined (group_consumer.go:367, 400, 523) *)
Definition set_joined (g : gst) (j : bool) : gst :=
  mkG (g_member g) (g_gen g) (g_leader g) (g_avail g) (g_coord g) j (g_closed g) (g_chan g) (g_sc g) (g_wg g) (g_sess g) (g_com g).
(** closed and the value in closeChan (group_consumer.go:411-435) *)
Definition set_close (g : gst) (c ch : bool) : gst :=
  mkG (g_member g) (g_gen g) (g_leader g) (g_avail g) (g_coord g) (g_joined g) c ch (g_sc g) (g_wg g) (g_sess g) (g_com g).
(** simpleConsumers and the counter of the wait group *)
Definition set_sc (g : gst) (l : list (bytes * Z)) (w : Z) : gst :=
  mkG (g_member g) (g_gen g) (g_leader g) (g_avail g) (g_coord g) (g_joined g) (g_closed g) (g_chan g) l w (g_sess g) (g_com g).
(** the calls of consumeWithoutHeartBeat under way *)
Definition set_sess (g : gst) (l : list session) : gst :=
  mkG (g_member g) (g_gen g) (g_leader g) (g_avail g) (g_coord g) (g_joined g) (g_closed g) (g_chan g) (g_sc g) (g_wg g) l (g_com g).
(** the commitOffset calls under way *)
Definition set_gcom (g : gst) (l : list centry) : gst :=
  mkG (g_member g) (g_gen g) (g_leader g) (g_avail g) (g_coord g) (g_joined g) (g_closed g) (g_chan g) (g_sc g) (g_wg g) (g_sess g) l.

(** the entry with number i is replaced *)
Fixpoint upd {A} (i : nat) (x : A) (l : list A) : list A :=
  match l, i with
  | [], _ => []
  | _ :: t, O => x :: t
  | h :: t, S k => h :: upd k x t
  end.
(** the entry with number i is removed *)
Fixpoint del {A} (i : nat) (l : list A) : list A :=
  match l, i with
  | [], _ => []
  | _ :: t, O => t
  | h :: t, S k => h :: del k t
  end.
(** the phase of the loop of session i *)
Definition set_loop (g : gst) (i : nat) (p : lphase) : gst :=
  match nth_error (g_sess g) i with
  | Some s => set_sess g (upd i (mkS p (s_main s)) (g_sess g))
  | None => g
  end.
(** the phase of the main part of session i *)
Definition set_main (g : gst) (i : nat) (p : mphase) : gst :=
  match nth_error (g_sess g) i with
  | Some s => set_sess g (upd i (mkS (s_loop s) p) (g_sess g))
  | None => g
  end.

(** comparison of an error with the error of a code, after unwrapping *)
Definition is_kafka (c : Z) (e : err) : bool := match err_root e with EKafka c' => c' =? c | _ => false end.

(** joinAndSync returns nil: the outer loop ends, group_consumer.go:508-510 *)
Definition done (g : gst) (i : nat) : gst * list gev := (set_loop g i PDone, [GRet i None]).
(** joinAndSync after an error (group_consumer.go:280-304).  Errors 22, 25, 27 and retriable errors that are
    not wrapped stay in the loop, all others are returned to the outer loop, which calls
    joinAndSync again: both continue at the head. *)
Definition stays (e : err) : bool :=
  is_kafka 22 e || is_kafka 25 e || is_kafka 27 e || match e with EKafka c => retriable c | _ => false end.
(** group_consumer.go:293-302: the loop goes round *)
Definition again (g : gst) (i : nat) (ev : gev) (e : err) : gst * list gev :=
  (set_loop g i PHead, if stays e then [ev] else [ev; GRet i (Some e)]).

(** group_consumer.go:189-209: what join does on an error *)
Definition join_failed (g : gst) (e : err) (txt : bool) : gst :=
  let g := if is_kafka 25 e then set_id g [] (g_gen g) (g_leader g) else g in
  if (match err_root e with EEOF => true | _ => false end) || is_kafka 15 e || is_kafka 16 e || txt
  then set_avail g false (g_coord g) else g.
(** group_consumer.go:243-252 *)
Definition sync_failed (g : gst) (e : err) : gst :=
  let g := if is_kafka 15 e || is_kafka 16 e then set_avail g false (g_coord g) else g in
  if is_kafka 25 e then set_id g [] (g_gen g) (g_leader g) else g.

(** group_consumer.go:148-168: one partition consumer per assigned partition *)
Definition parts_of (m : MemberAssignment) : list (bytes * Z) :=
  flat_map (fun p => map (fun x => (fst p, x)) (snd p)) (ma_parts m).

(** group_consumer.go:372-386 stop: every partition consumer's Stop calls wg.Done (simple_consumer.go:291-293);
    a negative counter panics.  Simplifications: Stop of all of them is one step; waiting
    for the counter to reach zero is not modelled. *)
Definition gstop (g : gst) : res gst :=
  let w := g_wg g - zlen (g_sc g) in
  if w <? 0 then Panic else Ok (set_sc g [] w).

(** One step.  Operations that are not possible in the state change nothing.
    Simplifications: a step reads and writes the shared fields without interruption,
    except where the phases above say otherwise; the assignment the leader computes
    (229-232) is the matter of Assign.v; what makes the heartbeat and the metadata
    goroutine call restart (478-489, 446-460) is left out: a restart can come at any time;
    so can the calls of the committing goroutines. *)
Definition gstep (g : gst) (op : gop) : res (gst * list gev) :=
  match op with
  | OLook i ans =>                                                   (* 263-271, 506-507, getCoordinator 132-146 *)
      match nth_error (g_sess g) i with
      | Some (mkS PHead _) =>
          if g_closed g then Ok (done g i)
          else if g_avail g then Ok (set_loop g i PJoin, [])
          else match ans with
               | Ok _ => Ok (set_loop (set_avail g (g_avail g) true) i PJoin, [GFound i])
               | Err _ => Ok (g, [])
               | Panic => Panic | Unspec => Unspec
               end
      | _ => Ok (g, [])
      end
  | OJoin i =>                                                       (* 272-278 *)
      match nth_error (g_sess g) i with
      | Some (mkS PJoin _) =>
          let g := set_avail g true (g_coord g) in
          if g_closed g then Ok (done g i) else Ok (set_loop g i PWait, [GJoin i (g_member g)])
      | _ => Ok (g, [])
      end
  | OJoinAns i ans txt =>
      match nth_error (g_sess g) i with
      | Some (mkS PWait _) =>
          match ans with
          | Err e =>
              let g := join_failed g e txt in
              if g_closed g then Ok (set_loop g i PDone, [GFailed i e; GRet i None])
              else Ok (again g i (GFailed i e) e)
          | Ok (gen, (m, l)) => Ok (set_loop (set_id g (g_member g) gen (g_leader g)) i (PSet m (beqb l m)), [])
          | Panic => Panic | Unspec => Unspec
          end
      | _ => Ok (g, [])
      end
  | OSet i =>                                                        (* 215-224, 280-282 *)
      match nth_error (g_sess g) i with
      | Some (mkS (PSet m ldr) _) =>
          let g := set_id g m (g_gen g) ldr in
          if g_closed g then Ok (set_loop g i PDone, [GJoined i (g_gen g) m; GRet i None])
          else Ok (set_loop g i PSync, [GJoined i (g_gen g) m])
      | _ => Ok (g, [])
      end
  | OSync i =>
      match nth_error (g_sess g) i with
      | Some (mkS PSync _) => Ok (set_loop g i PSyncWait, [GSync i (g_gen g) (g_member g)])
      | _ => Ok (g, [])
      end
  | OSyncAns i ans =>                                                (* 243-259, 284-304 *)
      match nth_error (g_sess g) i with
      | Some (mkS PSyncWait _) =>
          match ans with
          | Err e => Ok (again (sync_failed g e) i (GFailed i e) e)
          | Ok payload =>
              match newMemberAssignment payload with
              | Ok m => Ok (set_loop (set_sc g (parts_of m) (g_wg g)) i PDone, [GSynced i (parts_of m); GRet i None])
              | Err e => Ok (again g i (GBad i) (EWrap e))
              | Panic => Panic | Unspec => Unspec
              end
          | Panic => Panic | Unspec => Unspec
          end
      | _ => Ok (g, [])
      end
  | OTakeClose i =>                                                  (* 518-519 *)
      match nth_error (g_sess g) i with
      | Some (mkS _ MWait) => if g_chan g then Ok (set_main (set_close g (g_closed g) false) i MIdle, []) else Ok (g, [])
      | _ => Ok (g, [])
      end
  | OTakeJoined i =>                                                 (* 520-526 *)
      match nth_error (g_sess g) i with
      | Some (mkS PDone MWait) => Ok (set_main (set_joined g true) i (MStart (g_sc g)), [])
      | _ => Ok (g, [])
      end
  | OStartOne i =>                                                   (* 526-537 *)
      match nth_error (g_sess g) i with
      | Some (mkS _ (MStart (p :: l))) => Ok (set_main (set_sc g (g_sc g) (g_wg g + 1)) i (MStart l), [GStarted p])
      | Some (mkS _ (MStart [])) => Ok (set_main g i MIdle, [])
      | _ => Ok (g, [])
      end
  | OBeat =>                                                         (* 478-482, 307-318 *)
      if g_closed g then Ok (g, [])
      else if g_joined g then (if g_coord g then Ok (g, [GBeat (g_gen g) (g_member g)]) else Panic)
      else Ok (g, [])
  | OCheck =>                                                        (* 328-331 *)
      match g_member g with [] => Ok (g, []) | _ => Ok (set_gcom g (g_com g ++ [CChecked]), []) end
  | ORead k =>                                                       (* 342 *)
      match nth_error (g_com g) k with
      | Some CChecked => Ok (set_gcom g (upd k (CRead (g_member g)) (g_com g)), [])
      | _ => Ok (g, [])
      end
  | OSend k =>                                                       (* 343-347 *)
      match nth_error (g_com g) k with
      | Some (CRead m) => if g_coord g then Ok (set_gcom g (del k (g_com g)), [GCommit (g_gen g) m]) else Panic
      | _ => Ok (g, [])
      end
  | ORestart =>                                                      (* 360-370; restartLocker: one restart at a time *)
      if negb (forallb (fun s => match s_main s with MIdle => true | _ => false end) (tl (g_sess g))) then Ok (g, [])
      else rbind (gstop g) (fun g' =>
      Ok (set_sess (set_joined g' false) (g_sess g ++ [mkS PHead MWait]), []))
  | OClose =>                                                        (* 411-418; line 415 waits while closeChan is full *)
      if g_chan g then Ok (g, [])
      else rbind (gstop (set_close g true true)) (fun g' => Ok (g', [GClosing]))
  | OLeave ans =>                                                    (* 388-401, 433; broker.go:438-442 *)
      if negb (g_closed g) then Ok (g, [])
      else if g_joined g then
        if g_coord g then
          match ans with
          | Ok _ => Ok (set_joined (set_id g [] (g_gen g) (g_leader g)) false, [GLeft (g_member g)])
          | Err _ | Panic => Panic
          | Unspec => Unspec
          end
        else Panic
      else Ok (g, [])
  end.

(** a sequence of steps *)
Fixpoint grun (g : gst) (ops : list gop) : res (gst * list gev) :=
  match ops with
  | [] => Ok (g, [])
  | op :: ops' =>
      rbind (gstep g op) (fun r1 =>
      rbind (grun (fst r1) ops') (fun r2 => Ok (fst r2, snd r1 ++ snd r2)))
  end.

(** NewGroupConsumer (group_consumer.go:76-90) and the first call of Consume *)
Definition ginit : gst := mkG [] 0 false false false false false false [] 0 [mkS PHead MWait] [].

(** ** Metadata changes *)
Notation gtopic := (Z * (bytes * (bool * list nopart)))%type (only parsing).

(** group_consumer.go:566-574 *)
Definition part_same (a b : nopart) : bool :=
  (fst (snd a) =? fst (snd b)) && (fst a =? fst b) && (fst (snd (snd a)) =? fst (snd (snd b))).
(** group_consumer.go:561-575: the loop over the partitions *)
Fixpoint parts_same (a b : list nopart) : bool :=
  match a, b with
  | [], [] => true
  | x :: a', y :: b' => part_same x y && parts_same a' b'
  | _, _ => false
  end.
(** group_consumer.go:556-576: the loop over the topics *)
Fixpoint topics_same (a b : list gtopic) : bool :=
  match a, b with
  | [], [] => true
  | (e, (n, (_, ps))) :: a', (e', (n', (_, ps'))) :: b' =>
      beqb n n' && (e =? e') && parts_same ps ps' && topics_same a' b'
  | _, _ => false
  end.
(** group_consumer.go:543-579 ifTopicMetadatasSame; [None]: nil.  The loops stop at the first difference;
    comparing the lengths first gives the same result. *)
Definition ifTopicMetadatasSame (a b : option (list gtopic)) : bool :=
  match a, b with
  | None, None => true
  | Some a, Some b => topics_same a b
  | _, _ => false
  end.

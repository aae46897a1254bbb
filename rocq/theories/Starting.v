(** Model of SimpleConsumer.Consume beside SimpleConsumer.Stop, step by step: what Stop does to a
    consumer that is still being started.  The consumer is one by itself, not of a group consumer
    (belongTO is nil). *)
From Verif Require Import Base.

(** where Consume is, simple_consumer.go:342-398 *)
Inductive cphase :=
| CHead                       (* 356 *)
| CLook                       (* in getLeaderBroker, 357 *)
| CCheck                      (* 366 *)
| CAsk                        (* in the request of getCommitedOffet, 250 *)
| CInit                       (* 190: the head of the loop of initOffset *)
| COff                        (* in getOffset, 191 *)
| CGo                         (* 380-396 *)
| CDone.
(** the goroutine of the loop (395): started but not at line 401 yet; at the head of the loop (407);
    in requestFetchStreamingly or handing out messages; ended *)
Inductive sloop := LNone | LNew | LHead | LBusy | LGone.
(** the goroutine that commits, 380-393 *)
Inductive scommit := KNone | KRuns | KGone.
(** where Stop is, 277-294: before line 279, 281, 283, 285, or through *)
Inductive sstop := SIdle | SFlag | SWait | SClose | SOver.
(** [s_lead]: leaderBroker, None is nil, else whether its connection is open; [s_wg]: the counter of
    consumeLoopWg; [s_ctx]: the context is cancelled; [s_flag]: stop; [s_com]: offsetCommited *)
Record sst := mkSS { s_ctx : bool; s_flag : bool; s_offset : Z; s_com : Z; s_lead : option bool; s_wg : nat;
  s_con : cphase; s_loop : sloop; s_commit : scommit; s_stop : sstop }.
(** connections to the leader, fetch requests, commit requests, the return of Stop and of Consume *)
Inductive sev := VOpen | VClosed | VFetch | VAskCommitted | VAskOffset | VCommit (off : Z) | VStopped | VReturned.
(** A step of Consume, with the answer of the network if it waits for one; a step of the loop, which moved
    the offset on to [off] if it handed out messages; of the committing goroutine, woken by its ticker if not by
    the context; of Stop. *)
Inductive sop := DConsume (ans : option Z) | DLoop (off : option Z) | DCommit (ok : bool) | DStop.

Section Starting.
  (** GroupID is not empty; AutoCommit *)
  Variables group auto : bool.
  (** the fields of SimpleConsumer (simple_consumer.go:16-40) that a step sets, and where its goroutine is then *)
  Definition set_con (s : sst) (c : cphase) : sst :=
    mkSS (s_ctx s) (s_flag s) (s_offset s) (s_com s) (s_lead s) (s_wg s) c (s_loop s) (s_commit s) (s_stop s).
  (** c.offset (simple_consumer.go:32) *)
  Definition set_off (s : sst) (o : Z) : sst :=
    mkSS (s_ctx s) (s_flag s) o (s_com s) (s_lead s) (s_wg s) (s_con s) (s_loop s) (s_commit s) (s_stop s).
  (** c.leaderBroker (simple_consumer.go:22) *)
  Definition set_lead (s : sst) (l : option bool) : sst :=
    mkSS (s_ctx s) (s_flag s) (s_offset s) (s_com s) l (s_wg s) (s_con s) (s_loop s) (s_commit s) (s_stop s).
  (** c.consumeLoopWg (simple_consumer.go:29) *)
  Definition set_lp (s : sst) (l : sloop) (w : nat) : sst :=
    mkSS (s_ctx s) (s_flag s) (s_offset s) (s_com s) (s_lead s) w (s_con s) l (s_commit s) (s_stop s).
  (** c.offsetCommited (simple_consumer.go:33) *)
  Definition set_kp (s : sst) (k : scommit) (c : Z) : sst :=
    mkSS (s_ctx s) (s_flag s) (s_offset s) c (s_lead s) (s_wg s) (s_con s) (s_loop s) k (s_stop s).
  (** c.ctx and c.stop (simple_consumer.go:26-28) *)
  Definition set_sp (s : sst) (p : sstop) (ctx flag : bool) : sst :=
    mkSS ctx flag (s_offset s) (s_com s) (s_lead s) (s_wg s) (s_con s) (s_loop s) (s_commit s) p.
  (** -1 or -2: the offset is not known *)
  Definition unknown (o : Z) : bool := (o =? -1) || (o =? -2).
  (** 375: initOffset is called or not; it returns at once if the offset is known (182-184) *)
  Definition to_init (s : sst) : sst := set_con s (if unknown (s_offset s) then CInit else CGo).
  (** a request on the leader's handle connects again if it was closed (broker.go:208-213, 240, 371).
      Simplification: that works. *)
  Definition use_lead (s : sst) : sst * list sev :=
    match s_lead s with Some false => (set_lead s (Some true), [VOpen]) | _ => (s, []) end.
  (** simple_consumer.go:356-396 *)
  Definition consume1 (s : sst) (ans : option Z) : sst * list sev :=
    match s_con s with
    | CHead => (set_con s (if s_flag s then CCheck else CLook), [])
    | CLook => match ans with Some _ => (set_con (set_lead s (Some true)) CCheck, [VOpen]) | None => (set_con s CHead, []) end
    | CCheck => if s_flag s then (set_con s CDone, [VReturned])
                else if group && unknown (s_offset s) then (set_con s CAsk, []) else (to_init s, [])
    | CAsk => match ans with
              | None => (s, [VAskCommitted])
              | Some v => (to_init (if 0 <=? v then set_off s v else s), [VAskCommitted])
              end
    | CInit => (set_con s (if s_flag s then CGo else COff), [])
    | COff => let '(s, evs) := use_lead s in
              match ans with
              | Some v => (set_con (set_off s v) CGo, evs ++ [VAskOffset])
              | None => (set_con (set_off s (-1)) CInit, evs ++ [VAskOffset])
              end
    | CGo => (set_con (set_lp (if auto && group then set_kp s KRuns (s_com s) else s) LNew (s_wg s)) CDone, [VReturned])
    | CDone => (s, [])
    end.
  (** 400-454 consumeLoop *)
  Definition loop1 (s : sst) (off : option Z) : sst * list sev :=
    match s_loop s with
    | LNew => (set_lp s LHead (S (s_wg s)), [])
    | LHead => if s_flag s then (set_lp s LGone (pred (s_wg s)), [])
               else let '(s, evs) := use_lead s in (set_lp s LBusy (s_wg s), evs ++ [VFetch])
    | LBusy => (set_lp (match off with Some o => set_off s o | None => s end) LHead (s_wg s), [])
    | _ => (s, [])
    end.
  (** 380-393 and 323-338 CommitOffset with 297-318 commitOffset: the last commit is made when the context
      is cancelled *)
  Definition commit1 (s : sst) (ok : bool) : sst * list sev :=
    match s_commit s with
    | KRuns =>
        let k := if s_ctx s then KGone else KRuns in
        if s_offset s =? s_com s then (set_kp s k (s_com s), [])
        else (set_kp s k (if ok then s_offset s else s_com s), [VCommit (s_offset s)])
    | _ => (s, [])
    end.
  (** 277-294 Stop *)
  Definition stop1 (s : sst) : sst * list sev :=
    match s_stop s with
    | SIdle => (set_sp s SFlag true (s_flag s), [])
    | SFlag => (set_sp s SWait (s_ctx s) true, [])
    | SWait => (match s_wg s with O => set_sp s SClose (s_ctx s) (s_flag s) | _ => s end, [])
    | SClose => match s_lead s with
                | Some true => (set_lead (set_sp s SOver (s_ctx s) (s_flag s)) (Some false), [VClosed; VStopped])
                | _ => (set_sp s SOver (s_ctx s) (s_flag s), [VStopped])
                end
    | SOver => (s, [])
    end.
  (** one of the four goes on *)
  Definition dstep (s : sst) (o : sop) : sst * list sev :=
    match o with
    | DConsume ans => consume1 s ans
    | DLoop off => loop1 s off
    | DCommit ok => commit1 s ok
    | DStop => stop1 s
    end.
  (** any interleaving *)
  Fixpoint drun (s : sst) (l : list sop) : sst * list sev :=
    match l with
    | [] => (s, [])
    | o :: l' => let '(s1, e1) := dstep s o in let '(s2, e2) := drun s1 l' in (s2, e1 ++ e2)
    end.
End Starting.
(** a new consumer when Consume is called with [off] *)
Definition sinit (off : Z) : sst := mkSS false false off 0 None 0 CHead LNone KNone SIdle.

(** Model of the goroutines the package starts: what starts each of them and what ends it. *)
From Verif Require Import Base Wire Group Gcons.

(** ** Producers *)
(** simple_producer.go:69-129 NewSimpleProducer.  [sp_closed]: closeChan is closed (244);
    [sp_runs]: its flushing goroutine (116-126) runs. *)
Record sprod := mkSp { sp_closed : bool; sp_runs : bool }.
(** producer.go:17-31.  [pl_ticks]: the goroutine of lines 69-76 runs; [pl_sps]: all simple producers
    ever made; [pl_cur] and [pl_keyed]: the numbers of currentProducer and of those in
    pidToSimpleProducers. *)
Record plives := mkPl { pl_ticks : bool; pl_sps : list sprod; pl_cur : option nat; pl_keyed : list (Z * nat) }.
(** What happens: NewProducer returns; updateCurrentSimpleProducer is called (59, 71), and works or not;
    a message with a key is added for partition [pid], whose simple producer can be made or not; the flushing
    goroutine of simple producer [i] goes round its select, and takes the case of closeChan if it can and
    [chan] (both cases may be ready); Close. *)
Inductive pop := PReturn | PUpdate (ok : bool) | PKey (pid : Z) (ok : bool) | PLoop (i : nat) (chan : bool) | PClose.

(** simple_producer.go:228-248 Close: closeChan is closed once.  Simplification: it has a leader (Closing.v). *)
Definition sp_close (s : sprod) : sprod := mkSp true (sp_runs s).
(** the simple producer with number [i] *)
Fixpoint sp_upd (i : nat) (f : sprod -> sprod) (l : list sprod) : list sprod :=
  match l, i with
  | [], _ => []
  | s :: l', O => f s :: l'
  | s :: l', S j => s :: sp_upd j f l'
  end.
(** closing those with the given numbers *)
Definition sp_close_all (ns : list nat) (l : list sprod) : list sprod := fold_left (fun l i => sp_upd i sp_close l) ns l.
(** the case of closeChan, simple_producer.go:122-123 *)
Definition sp_select (chan : bool) (s : sprod) : sprod := mkSp (sp_closed s) (if sp_closed s && chan then false else sp_runs s).
(** the entry of a map *)
Definition keyed (pid : Z) (l : list (Z * nat)) : bool := existsb (fun x => fst x =? pid) l.

(** producer.go:34-79 NewProducer, 82-117 updateCurrentSimpleProducer, 133-166 getSimpleProducer, 188-199 Close *)
Definition pstep (p : plives) (o : pop) : plives :=
  match o with
  | PReturn => mkPl true (pl_sps p) (pl_cur p) (pl_keyed p)
  | PUpdate false => p
  | PUpdate true =>
      mkPl (pl_ticks p) (sp_close_all (match pl_cur p with Some i => [i] | None => [] end) (pl_sps p ++ [mkSp false true]))
           (Some (length (pl_sps p))) (pl_keyed p)
  | PKey pid ok =>
      if keyed pid (pl_keyed p) || negb ok then p
      else mkPl (pl_ticks p) (pl_sps p ++ [mkSp false true]) (pl_cur p) ((pid, length (pl_sps p)) :: pl_keyed p)
  | PLoop i chan => mkPl (pl_ticks p) (sp_upd i (sp_select chan) (pl_sps p)) (pl_cur p) (pl_keyed p)
  | PClose =>
      mkPl (pl_ticks p) (sp_close_all ((match pl_cur p with Some i => [i] | None => [] end) ++ map snd (pl_keyed p)) (pl_sps p))
           (pl_cur p) (pl_keyed p)
  end.
(** any number of these *)
Definition pruns (p : plives) (l : list pop) : plives := fold_left pstep l p.
(** NewProducer before anything was done *)
Definition pinit : plives := mkPl false [] None [].
(** the goroutines that run: the one that looks up the topic, and the flushing ones *)
Definition pcount (p : plives) : nat := ((if pl_ticks p then 1 else 0) + length (filter sp_runs (pl_sps p)))%nat.

(** ** AwaitClose *)
(** consumer.go:150, 164-168 and group_consumer.go:419-431: a goroutine waits until the wait group is at 0
    (and closes the brokers), then sends on a channel without buffer.  The caller receives or its timer
    expires; after that nobody receives. *)
Inductive helper := HWait | HSend | HGone.
Record await := mkAw { aw_wg : Z; aw_helper : helper; aw_waits : bool }.
(** wg.Done by a Stop; the goroutine goes on to send; both meet; the timer *)
Inductive aop := ADone | ASend | AMeet | ATimeout.
(** consumer.go:149-169, group_consumer.go:411-431 *)
Definition astep (a : await) (o : aop) : await :=
  match o, aw_helper a with
  | ADone, _ => mkAw (aw_wg a - 1) (aw_helper a) (aw_waits a)
  | ASend, HWait => if aw_wg a <=? 0 then mkAw (aw_wg a) HSend (aw_waits a) else a
  | AMeet, HSend => if aw_waits a then mkAw (aw_wg a) HGone false else a
  | ATimeout, _ => mkAw (aw_wg a) (aw_helper a) false
  | _, _ => a
  end.
(** any number of these *)
Definition aruns (a : await) (l : list aop) : await := fold_left astep l a.

(** ** Group consumers *)
(** A partition consumer made by parseGroupAssignments (group_consumer.go:148-171).  [pc_in]: it is in
    simpleConsumers; [pc_off]: its context is cancelled (simple_consumer.go:279); [pc_runs]: its refreshing
    goroutine (61-73) runs, which the context ends.  The goroutine that commits (380-393) ends in the same
    way, and the loop as in Consumer.v. *)
Record pcons := mkPc { pc_part : bytes * Z; pc_in : bool; pc_off : bool; pc_runs : bool }.
(** a group consumer: its state as in Gcons.v, all partition consumers ever made, the number of
    goroutines that send heartbeats (group_consumer.go:476-487) and that refresh the metadata (489-492) *)
Record glives := mkGl { gl_g : gst; gl_pcs : list pcons; gl_beats : nat; gl_metas : nat }.
(** a step of Gcons.v; the refreshing goroutine of partition consumer [i] finds its context cancelled if it
    is; a heartbeat goroutine or a metadata goroutine gets a tick; Consume is called again *)
Inductive lop := LStep (op : gop) | LRefresh (i : nat) | LBeat | LMeta | LConsume.
(** simple_consumer.go:277-281 *)
Definition pc_stop (c : pcons) : pcons := if pc_in c then mkPc (pc_part c) false true (pc_runs c) else c.
(** group_consumer.go:155: the list is replaced *)
Definition pc_drop (c : pcons) : pcons := mkPc (pc_part c) false (pc_off c) (pc_runs c).
(** simple_consumer.go:69-70 *)
Definition pc_done (c : pcons) : pcons := mkPc (pc_part c) (pc_in c) (pc_off c) (if pc_off c then false else pc_runs c).
(** the one with number [i] *)
Fixpoint pc_upd (i : nat) (l : list pcons) : list pcons :=
  match l, i with
  | [], _ => []
  | c :: l', O => pc_done c :: l'
  | c :: l', S j => c :: pc_upd j l'
  end.
(** what an event of Gcons.v does to the partition consumers: a sync makes new ones *)
Definition pc_event (l : list pcons) (e : gev) : list pcons :=
  match e with
  | GSynced _ ps => map pc_drop l ++ map (fun p => mkPc p true false true) ps
  | GClosing => map pc_stop l
  | _ => l
  end.
(** group_consumer.go:360-370, a restart that took place: one more session *)
Definition restarted (g g' : gst) : bool := (length (g_sess g) <? length (g_sess g'))%nat.
(** one step; group_consumer.go:466-495 Consume sets closed to false and starts both goroutines again; 477-480
    and 440-443: a tick ends them if closed *)
Definition lstep (s : glives) (o : lop) : res glives :=
  match o with
  | LStep op =>
      rbind (gstep (gl_g s) op) (fun r =>
      Ok (mkGl (fst r) (fold_left pc_event (snd r) (if restarted (gl_g s) (fst r) then map pc_stop (gl_pcs s) else gl_pcs s)) (gl_beats s) (gl_metas s)))
  | LRefresh i => Ok (mkGl (gl_g s) (pc_upd i (gl_pcs s)) (gl_beats s) (gl_metas s))
  | LBeat => Ok (mkGl (gl_g s) (gl_pcs s) (if g_closed (gl_g s) then pred (gl_beats s) else gl_beats s) (gl_metas s))
  | LMeta => Ok (mkGl (gl_g s) (gl_pcs s) (gl_beats s) (if g_closed (gl_g s) then pred (gl_metas s) else gl_metas s))
  | LConsume =>
      Ok (mkGl (set_sess (set_close (gl_g s) false (g_chan (gl_g s))) (g_sess (gl_g s) ++ [mkS PHead MWait]))
               (gl_pcs s) (S (gl_beats s)) (S (gl_metas s)))
  end.
(** a sequence of steps *)
Fixpoint lrun (s : glives) (l : list lop) : res glives :=
  match l with [] => Ok s | o :: l' => rbind (lstep s o) (fun s' => lrun s' l') end.
(** after the first call of Consume *)
Definition linit : glives := mkGl ginit [] 1 1.
(** the goroutines that run, apart from those that join *)
Definition lcount (s : glives) : nat := (length (filter pc_runs (gl_pcs s)) + gl_beats s + gl_metas s)%nat.

(** Model of the Close functions of the client objects. *)
From Verif Require Import Base.

(** How a call ends.  [Blocks]: it waits for something nobody does any more.  [Crash]: it
    panics (in the calling goroutine or in one it started). *)
Inductive outcome (A : Type) := Done (a : A) | Blocks | Crash.
Arguments Done {A} a. Arguments Blocks {A}. Arguments Crash {A}.
(** sequence of calls *)
Definition obind {A B} (o : outcome A) (k : A -> outcome B) : outcome B :=
  match o with Done a => k a | Blocks => Blocks | Crash => Crash end.

(** broker.go:197-207 Broker.Close: a handle is true while conn is not nil *)
Definition broker_close (h : bool) : bool := false.

(** brokers.go:27-32 Brokers.Close; closing a closed channel panics.  client.go:35-37
    Client.Close is the same. *)
Record brokers := mkBs { bs_closed : bool; bs_handles : list (Z * bool) }.
(** brokers.go:27-32 Brokers.Close *)
Definition brokers_close (b : brokers) : outcome brokers :=
  if bs_closed b then Crash
  else Done (mkBs true (map (fun x => (fst x, broker_close (snd x))) (bs_handles b))).

(** simple_producer.go:228-248 SimpleProducer.Close.  [sp_leader]: None is the nil pointer;
    [sp_child]: parent is not nil.  The trace is the record lists handed to flush. *)
Record sprod := mkSp { sp_once : bool; sp_records : list Z; sp_leader : option bool; sp_child : bool; sp_chan : bool; sp_closed : bool }.
(** simple_producer.go:228-248 SimpleProducer.Close *)
Definition sprod_close (p : sprod) : outcome (sprod * list (list Z)) :=
  if sp_once p then Done (p, [])
  else
    match sp_leader p with
    | None => if sp_child p then (match sp_records p with [] => Done (mkSp true [] None true true true, []) | _ => Crash end) else Crash
    | Some h =>
        if sp_chan p then Crash
        else Done (mkSp true (sp_records p) (Some (if sp_child p then h else broker_close h)) (sp_child p) true true,
                   match sp_records p with [] => [] | r => [r] end)
    end.

(** producer.go:188-199 Producer.Close *)
Record mprod := mkMp { mp_cur : option sprod; mp_sps : list (Z * sprod); mp_leaders : list (Z * bool) }.
(** producer.go:188-199: the loop over the simple producers *)
Fixpoint closes (l : list (Z * sprod)) : outcome (list (Z * sprod) * list (list Z)) :=
  match l with
  | [] => Done ([], [])
  | (k, p) :: l' =>
      obind (sprod_close p) (fun r => obind (closes l') (fun rs => Done ((k, fst r) :: fst rs, snd r ++ snd rs)))
  end.
(** producer.go:188-199 Producer.Close *)
Definition mprod_close (p : mprod) : outcome (mprod * list (list Z)) :=
  obind (match mp_cur p with
         | None => Done (None, [])
         | Some c => obind (sprod_close c) (fun r => Done (Some (fst r), snd r))
         end)
    (fun c => obind (closes (mp_sps p))
    (fun rs => Done (mkMp (fst c) (fst rs) (map (fun x => (fst x, broker_close (snd x))) (mp_leaders p)), snd c ++ snd rs))).

(** simple_consumer.go:277-294 Stop of a consumer whose loop has ended: [None] no wait
    group, else its counter; a counter below 0 panics *)
Definition scons_stop (wg : option Z) : outcome (option Z) :=
  match wg with None => Done None | Some n => if n <=? 0 then Crash else Done (Some (n - 1)) end.

(** consumer.go:140-169 Consumer.AwaitClose: stop (139-146) calls Stop of each of the
    [co_n] partition consumers (not forgotten afterwards), each of which lowers wg; then
    a goroutine waits for wg and closes the brokers.  Simplification: the timeout does not
    expire before. *)
Record cons := mkCo { co_n : nat; co_wg : Z; co_brokers : brokers }.
(** consumer.go:140-147: the loop over the simple consumers *)
Fixpoint stops (n : nat) (wg : Z) : outcome Z :=
  match n with O => Done wg | S m => if wg <=? 0 then Crash else stops m (wg - 1) end.
(** consumer.go:149-169 Consumer.AwaitClose *)
Definition cons_close (c : cons) : outcome cons :=
  obind (stops (co_n c) (co_wg c)) (fun wg =>
  if wg =? 0 then obind (brokers_close (co_brokers c)) (fun b => Done (mkCo (co_n c) wg b))
  else Done (mkCo (co_n c) wg (co_brokers c))).

(** group_consumer.go:411-435 GroupConsumer.AwaitClose: closeChan has room for one value
    (88), read only by consumeWithoutHeartBeat before it has joined (518); stop (372-386)
    forgets the partition consumers; the brokers are closed at the end (412).  [gc_reader]:
    somebody is waiting at line 518.  The leave request is left out. *)
Record gcons := mkGc { gc_chan : bool; gc_reader : bool; gc_n : nat; gc_wg : Z; gc_brokers : brokers }.
(** group_consumer.go:411-435 GroupConsumer.AwaitClose *)
Definition gcons_close (g : gcons) : outcome gcons :=
  if gc_chan g && negb (gc_reader g) then Blocks
  else
    obind (stops (gc_n g) (gc_wg g)) (fun wg =>
    obind (brokers_close (gc_brokers g)) (fun b =>
    Done (mkGc (negb (gc_reader g)) false 0 wg b))).

(** C155: producers that ask for no acknowledgement. *)
From Verif Require Import Base Prims Records Requests Responses Fetch Conn Producer ProducerSpec ProducerFacts ConnRefute ProducerRefute DeadSpec DeadFacts AcksSpec AcksFacts.

(** *** C155 *)
(** C155 is false: RequestAndGet waits for an answer to every request (broker.go:253-258).  If
    the configuration asks for none, and the broker sends none, every flush of every sequence
    of operations ends with an error, be the messages delivered or not; *)
Theorem C155_error_refuted : forall zip g st0 ops st evs a, srun zip g st0 ops = Ok (st, evs) -> g_acks g = 0 ->
  Forall (fun o => obeys (g_acks g) (snd o)) ops -> In a (flushes evs) -> exists e, t_err a = Some e.
Proof. exact all_fail. Qed.
Print Assumptions C155_error_refuted.
(** Flush returns it, *)
Theorem C155_flush_refuted : forall zip g st0 ops st evs e a, srun zip g st0 ops = Ok (st, evs) -> g_acks g = 0 ->
  Forall (fun o => obeys (g_acks g) (snd o)) ops -> In e evs -> e_op e = OFlush -> e_att e = Some a -> e_ret e <> None.
Proof.
  intros zip g st0 ops st evs e a H H0 Ho Hi He Ha. rewrite (flush_says _ _ _ _ _ _ _ _ H Hi He Ha).
  destruct (all_fail _ _ _ _ _ _ a H H0 Ho) as [x ->]; [|discriminate].
  unfold flushes. apply in_flat_map. exists e. split; [exact Hi|]. rewrite Ha. left. reflexivity.
Qed.
Print Assumptions C155_flush_refuted.
(** and it is the error one gets if the broker received nothing, so that a caller who sends the
    messages again when Flush fails never stops doing so. *)
Theorem C155_lost_or_not_refuted : forall zip g h ver corr ts e recs a,
  sflush zip g h (NSend ver corr ts true (Err e)) recs = Ok a ->
  exists b, sflush zip g h (NSend ver corr ts false (Err e)) recs = Ok b /\
  t_err a = Some e /\ t_err b = Some e /\ t_msgs a = t_msgs b /\ reached a = true /\ reached b = false.
Proof. exact same_error. Qed.
Print Assumptions C155_lost_or_not_refuted.
(** The error is that of the deadline: nothing arrives until then. *)
Theorem C155_waits_refuted : forall sasl o x s c, b_conn s = Some c -> silent x ->
  fst (requestAndGet sasl o x s) = Ret (Err (EWrap ETimeout)).
Proof.
  intros sasl o x s c Hc Hx. destruct (kept_step sasl o x s c ETimeout Hc (silent_fails x Hx) timeout_goes_on) as (c' & corr & E & _).
  rewrite E. reflexivity.
Qed.
Print Assumptions C155_waits_refuted.
Example C155_ex : let g := with_acks (gx 2) 0 in let n := NSend 9 7 1000 true (Err (EWrap ETimeout)) in
  obeys (g_acks g) n /\
  exists st evs, srun zx g (hx, sp0) [(OAdd None (Some 1%nat), n); (OFlush, n); (OAdd None (Some 1%nat), n); (OFlush, n)] = Ok (st, evs) /\
  map e_ret evs = [None; Some (EWrap ETimeout); None; Some (EWrap ETimeout)] /\ received evs = [(None, [118; 49]); (None, [118; 49])].
Proof.
  split; [intros _; eexists; reflexivity|]. do 2 eexists. split; [vm_compute; reflexivity|]. split; vm_compute; reflexivity.
Qed.
Example C155_waits_ex : exists s, newBroker false go = Some s /\ silent (late [1]) /\
  fst (requestAndGet false go (late [1]) s) = Ret (Err (EWrap ETimeout)).
Proof. eexists. split; [vm_compute; reflexivity|]. split; [repeat split|vm_compute; reflexivity]. Qed.
(** What holds, and is the reason: the acknowledgements asked for are written into the request
    and change nothing else.  With any other number of them, the messages, the error, the
    number of bytes, and whether there are any, are the same. *)
Theorem C155_only_written_partial : forall zip g k h n recs,
  match sflush zip g h n recs, sflush zip (with_acks g k) h n recs with
  | Ok a, Ok b => t_msgs a = t_msgs b /\ t_err a = t_err b /\ as_long (t_wire a) (t_wire b)
  | Err a, Err b => a = b
  | Panic, Panic | Unspec, Unspec => True
  | _, _ => False
  end.
Proof. exact acks_ignored. Qed.
Print Assumptions C155_only_written_partial.
Example C155_only_written_ex : exists a b w w',
  sflush zx (gx 2) hx good [mkP None [118; 49]] = Ok a /\ sflush zx (with_acks (gx 2) 0) hx good [mkP None [118; 49]] = Ok b /\
  t_err a = None /\ t_err b = None /\ t_wire a = Some (9, 7, 1000, w) /\ t_wire b = Some (9, 7, 1000, w') /\
  length w = length w' /\ length (filter (fun p => negb (fst p =? snd p)) (combine w w')) = 1%nat.
Proof. do 4 eexists. split; [vm_compute; reflexivity|]. split; [vm_compute; reflexivity|]. repeat split. Qed.

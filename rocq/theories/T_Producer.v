(** C32-C37 and C60-C62: producers. *)
From Verif Require Import Base BaseFacts Prims Wire RequestSpec RecordSpec RequestPrep Requests Responses Producer ProducerSpec ProducerFacts ProducerWire ProducerMulti ProducerRefute ProducerMore.

(** *** C32 *)
(** Every sequence of operations of one simple producer, all sends succeeding: until it is
    closed ([ops1]), at Close, and afterwards (calls of AddMessage and Close only, see
    C34).  What the broker received is what was accepted, once and in order, in batches
    of at most the configured size. *)
Theorem C32_once_in_order : forall zip g h ops1 n ops2 st evs,
  srun zip g (h, sp0) (ops1 ++ (OClose, n) :: ops2) = Ok (st, evs) ->
  ~ In OClose (map fst ops1) -> Forall (fun o => quiet (fst o)) ops2 ->
  Forall (fun o => no_write (fst o)) ops1 -> Forall (fun o => succeeds (snd o)) (ops1 ++ (OClose, n) :: ops2) ->
  received evs = accepted evs /\ Forall (fun a => 1 <= zlen (t_msgs a) <= Z.max 1 (g_max g)) (flushes evs).
Proof. exact once_in_order. Qed.
Print Assumptions C32_once_in_order.
(** Whatever the network does: before Close every accepted message is in exactly one
    attempt or still queued, in order. *)
Theorem C32_before_close : forall zip g h ops st evs,
  srun zip g (h, sp0) ops = Ok (st, evs) -> ~ In OClose (map fst ops) -> Forall (fun o => no_write (fst o)) ops ->
  accepted evs = flat_map t_msgs (flushes evs) ++ map (deref (fst st)) (s_recs (snd st)).
Proof. exact before_close. Qed.
Print Assumptions C32_before_close.
(** The bytes: what a broker reads from the request of an attempt are exactly these
    messages, in a record batch of the right topic and partition. *)
Theorem C32_batch_on_the_wire : forall zip g st0 ops st evs a corr ts out rest,
  srun zip g st0 ops = Ok (st, evs) -> In a (flushes evs) -> t_wire a = Some (9, corr, ts, out) ->
  g_magic g = 2 -> 0 <= g_codec g <= 3 -> i16 (g_acks g) -> i32 (g_timeout g) -> i32 (g_part g) ->
  zlen (g_topic g) < 2 ^ 15 -> zlen (g_client g) < 2 ^ 15 -> i32 corr ->
  1 <= zlen (t_msgs a) < 2 ^ 31 -> zlen out < 2 ^ 31 - 1 ->
  exists payload,
    (if g_codec g =? 0 then payload = flat_map enc_srecord (map spec_record (t_msgs a))
     else zip (g_codec g) (flat_map enc_srecord (map spec_record (t_msgs a))) = Ok payload) /\
    broker_reads 0 9 S_Produce_9 (out ++ rest) =
    Some (zlen out - 4, (0, 9, corr, Some (g_client g)),
          spec_request (g_topic g) (g_part g) (g_acks g) (g_timeout g)
            (enc_sbatch (spec_batch (g_codec g) ts (t_msgs a)) (zlen (t_msgs a)) payload), rest).
Proof. exact wire_batch. Qed.
Print Assumptions C32_batch_on_the_wire.
Example C32_ex : exists st evs,
  srun zx (gx 2) (hx, sp0) [(OAdd (Some 0%nat) (Some 1%nat), good); (OTick, good); (OAdd None (Some 2%nat), good); (OAdd (Some 0%nat) (Some 3%nat), good);
     (OAdd None (Some 1%nat), good); (OClose, good); (OAdd None (Some 1%nat), good)] = Ok (st, evs) /\
  received evs = [(Some [107; 49], [118; 49]); (None, [118; 50]); (Some [107; 49], [118; 51]); (None, [118; 49])] /\
  map (fun a => length (t_msgs a)) (flushes evs) = [1; 2; 1]%nat /\ map e_ret evs = [None; None; None; None; None; None; Some EClosed].
Proof. exact example_run. Qed.
Example C32_ex_good : succeeds good.
Proof. exact good_succeeds. Qed.

(** *** C33 *)
(** Finding: the errors of the flushes that AddMessage, the timer and Close do are
    dropped, and the messages with them. *)
Theorem C33_lost_on_add_refuted : exists st evs,
  srun zx (gx 1) (hx, sp0) [(OAdd None (Some 1%nat), unanswered); (OFlush, good); (OClose, good)] = Ok (st, evs) /\
  Forall (fun e => e_ret e = None) evs /\ accepted evs = [(None, [118; 49])] /\ received evs = [] /\ s_recs (snd st) = [].
Proof. exact lost_on_add. Qed.
Print Assumptions C33_lost_on_add_refuted.
Theorem C33_lost_on_tick_refuted : exists st evs,
  srun zx (gx 2) (hx, sp0) [(OAdd None (Some 1%nat), good); (OTick, NFail EConn); (OFlush, good); (OClose, good)] = Ok (st, evs) /\
  Forall (fun e => e_ret e = None) evs /\ accepted evs = [(None, [118; 49])] /\ received evs = [] /\ s_recs (snd st) = [].
Proof. exact lost_on_tick. Qed.
Print Assumptions C33_lost_on_tick_refuted.
Theorem C33_lost_on_close_refuted : exists st evs,
  srun zx (gx 2) (hx, sp0) [(OAdd None (Some 1%nat), good); (OClose, refused)] = Ok (st, evs) /\
  Forall (fun e => e_ret e = None) evs /\ accepted evs = [(None, [118; 49])] /\
  map t_err (flushes evs) = [Some (EKafka 6)].
Proof. exact lost_on_close. Qed.
Print Assumptions C33_lost_on_close_refuted.
(** What holds: Flush returns the error of its attempt; nil means that the broker got the
    batch. *)
Theorem C33_flush_reports_partial : forall zip g h ops st evs e a,
  srun zip g (h, sp0) ops = Ok (st, evs) -> Forall (fun o => honest (snd o)) ops ->
  In e evs -> e_op e = OFlush -> e_att e = Some a -> e_ret e = t_err a /\ (e_ret e = None -> reached a = true).
Proof. exact flush_reports. Qed.
Print Assumptions C33_flush_reports_partial.
Example C33_ex : exists st evs,
  srun zx (gx 2) (hx, sp0) [(OAdd None (Some 1%nat), good); (OFlush, unanswered); (OFlush, good); (OClose, good)] = Ok (st, evs) /\
  map e_ret evs = [None; Some EPipe; None; None] /\ accepted evs = [(None, [118; 49])] /\ received evs = [].
Proof. exact lost_on_flush. Qed.

(** *** C34 *)
(** Finding: Close leaves the messages it sent in the queue; a late tick, or a Flush,
    sends them again. *)
Theorem C34_sent_twice_refuted : forall o, o = OTick \/ o = OFlush -> exists st evs,
  srun zx (gx 2) (hx, sp0) [(OAdd None (Some 1%nat), good); (OClose, good); (o, good)] = Ok (st, evs) /\
  accepted evs = [(None, [118; 49])] /\ received evs = [(None, [118; 49]); (None, [118; 49])] /\ map e_ret evs = [None; None; None].
Proof. exact sent_twice. Qed.
Print Assumptions C34_sent_twice_refuted.
(** What holds: after Close nothing is accepted, and nothing is sent if the queue was
    empty at Close or there is neither a Flush nor a late tick. *)
Theorem C34_nothing_after_close_partial : forall zip g h ops1 n ops2 st evs,
  srun zip g (h, sp0) (ops1 ++ (OClose, n) :: ops2) = Ok (st, evs) ->
  exists st1 st2 e1 ec e2, srun zip g (h, sp0) ops1 = Ok (st1, e1) /\ sstep zip g st1 (OClose, n) = Ok (st2, ec) /\
    evs = e1 ++ ec :: e2 /\ accepted e2 = [] /\
    (s_recs (snd st1) = [] \/ Forall (fun o => quiet (fst o)) ops2 -> flushes e2 = []).
Proof. exact nothing_after_close. Qed.
Print Assumptions C34_nothing_after_close_partial.

(** *** C35 *)
(** Finding: AddMessage gives up after three closed producers and returns nil. *)
Theorem C35_dropped_after_close_refuted : exists m m', mrun zx (gx 2) mx [EClose 0 good] = Ok m /\
  addMessage zx (gx 2) m None (Some 1%nat) round0 round0 round0 = Ok (m', None, None).
Proof. exact dropped_after_close. Qed.
Print Assumptions C35_dropped_after_close_refuted.
Theorem C35_dropped_by_refresh_refuted : exists m', let r := mkRound [] None [ESwap 1 2 good] good in
  addMessage zx (gx 2) mx None (Some 1%nat) r r r = Ok (m', None, None).
Proof. exact dropped_by_refresh. Qed.
Print Assumptions C35_dropped_by_refresh_refuted.
(** What holds, while nobody calls Close: a message with a key is never dropped, however
    the other goroutines interleave; *)
Theorem C35_keyed_not_dropped_partial : forall zip g h meta pid leader es m r v r1 r2 r3 m' t,
  mrun zip g (new_mp h meta pid leader) es = Ok m -> Forall no_close es -> Forall no_close (round_evs r1) ->
  addMessage zip g m (Some r) v r1 r2 r3 = Ok (m', None, t) -> exists y, t = Some y.
Proof. exact keyed_not_dropped. Qed.
Print Assumptions C35_keyed_not_dropped_partial.
(** one without a key is not dropped unless three refreshes hit the three attempts. *)
Theorem C35_unkeyed_not_dropped_partial : forall zip g h meta pid leader es m v r1 r2 r3 m' t,
  mrun zip g (new_mp h meta pid leader) es = Ok m -> Forall no_close es ->
  Forall no_close (round_evs r1) -> Forall no_close (round_evs r2) -> Forall no_close (round_evs r3) ->
  (length (filter is_swap (a_between r1 ++ a_between r2 ++ a_between r3)) < 3)%nat ->
  addMessage zip g m None v r1 r2 r3 = Ok (m', None, t) -> exists y, t = Some y.
Proof. exact unkeyed_not_dropped. Qed.
Print Assumptions C35_unkeyed_not_dropped_partial.
Example C35_ex : exists m', let r := mkRound [] None [ESwap 1 2 good] good in
  addMessage zx (gx 2) mx None (Some 1%nat) r r round0 = Ok (m', None, Some (mkTaken 2 1 2)).
Proof. exact third_round. Qed.

(** *** C36 *)
(** The partition of a key, after every history: messages, refreshes, closes, with the
    number of partitions staying n. *)
Theorem C36_key_partition : forall zip g n h meta pid leader es m r key v r1 r2 r3 m' e t,
  zlen meta = n -> 0 < n < 2 ^ 31 -> mrun zip g (new_mp h meta pid leader) es = Ok m ->
  Forall (meta_count n) (es ++ round_evs r1 ++ round_evs r2 ++ round_evs r3) ->
  Forall no_mwrite (round_evs r1 ++ round_evs r2 ++ round_evs r3) ->
  bytes_ok key -> buf (m_heap m) r = key ->
  addMessage zip g m (Some r) v r1 r2 r3 = Ok (m', e, Some t) ->
  k_part t = murmur_spec key mod n /\ 0 <= k_part t < n.
Proof. exact key_partition. Qed.
Print Assumptions C36_key_partition.
Theorem C36_murmur : forall d, bytes_ok d -> MurmurHash2 d 0 = murmur_spec d.
Proof. exact murmur_is_spec. Qed.
Print Assumptions C36_murmur.
Example C36_ex : exists m',
  addMessage zx (gx 2) mx (Some 0%nat) (Some 1%nat) round0 round0 round0 = Ok (m', None, Some (mkTaken 1 (murmur_spec [107; 49] mod 3) 1)).
Proof. exact keyed_example. Qed.
(** test vectors of the Kafka project (seed 0x9747b28c; the client uses seed 0) *)
Example C36_ex_vectors : sint 32 (murmur_spec_seed 0x9747b28c [50; 49]) = -973932308 /\
  sint 32 (murmur_spec_seed 0x9747b28c [102; 111; 111; 98; 97; 114]) = -790332482.
Proof. split; reflexivity. Qed.

(** *** C37 *)
(** Finding: the key is not copied. *)
Theorem C37_key_changed_refuted : exists st evs,
  srun zx (gx 2) (hx, sp0) [(OAdd (Some 0%nat) (Some 1%nat), good); (OWrite 0 1 50, good); (OWrite 1 1 50, good); (OFlush, good); (OClose, good)] = Ok (st, evs) /\
  accepted evs = [(Some [107; 49], [118; 49])] /\ received evs = [(Some [107; 50], [118; 49])].
Proof. exact key_changed. Qed.
Print Assumptions C37_key_changed_refuted.
(** What holds: the values are copied; whatever the caller writes into its buffers, the
    values received are those at the time of AddMessage. *)
Theorem C37_values_kept_partial : forall zip g h ops1 n ops2 st evs,
  srun zip g (h, sp0) (ops1 ++ (OClose, n) :: ops2) = Ok (st, evs) ->
  ~ In OClose (map fst ops1) -> Forall (fun o => quiet (fst o)) ops2 ->
  Forall (fun o => succeeds (snd o)) (ops1 ++ (OClose, n) :: ops2) ->
  map snd (received evs) = map snd (accepted evs).
Proof. exact once_in_order_values. Qed.
Print Assumptions C37_values_kept_partial.

(** *** C60 *)
(** Finding: a partition without a leader (-1, no error) gives a producer without a
    handle, which panics when it sends. *)
Theorem C60_leaderless_refuted : exists find, forall conn, newSimpleProducer find conn = Ok (false, sp0).
Proof. exact (ex_intro _ (Ok (-1)) leaderless). Qed.
Print Assumptions C60_leaderless_refuted.
Theorem C60_leaderless_panics : forall zip g h n s, g_leader g = false -> s_recs s <> [] -> sflushop zip g h n s = Panic.
Proof. exact leaderless_panics. Qed.
Print Assumptions C60_leaderless_panics.
Theorem C60_leader_or_error_partial : forall find conn b s, newSimpleProducer find conn = Ok (b, s) -> find <> Ok (-1) ->
  b = true /\ s = sp0 /\ conn = None /\ exists id, find = Ok id.
Proof. exact leader_or_error. Qed.
Print Assumptions C60_leader_or_error_partial.

(** *** C61 *)
(** Finding: the refresh goroutine outlives Close and installs a new open producer. *)
Theorem C61_revived_refuted : exists m m' t, mrun zx (gx 2) mx [EClose 0 good; ESwap 1 2 good] = Ok m /\
  addMessage zx (gx 2) m None (Some 1%nat) round0 round0 round0 = Ok (m', None, Some t).
Proof. exact revived. Qed.
Print Assumptions C61_revived_refuted.

(** *** C62 *)
(** Finding: the producer of a key is cached with the handle of its first leader. *)
Theorem C62_stale_leader_refuted : exists m m' t, let meta' := [(0, (0, 5)); (1, (0, 5)); (2, (0, 5))] in
  mrun zx (gx 2) mx [EGet (Some 0%nat) None; EMeta meta'; ESwap 0 5 good] = Ok m /\ m_meta m = meta' /\
  addMessage zx (gx 2) m (Some 0%nat) (Some 1%nat) round0 round0 round0 = Ok (m', None, Some t) /\ k_leader t = 1 /\
  getLeaderID m (k_part t) = Ok 5.
Proof. exact stale_leader. Qed.
Print Assumptions C62_stale_leader_refuted.

(** C34: once the timer goroutine has seen Close it sends nothing more; nothing at all is
    sent or accepted unless the caller itself calls Flush. *)
Theorem C34_timer_ends_partial : forall zip g h ops1 n ops2 m ops3 st evs,
  srun zip g (h, sp0) (ops1 ++ (OClose, n) :: ops2 ++ (OExit, m) :: ops3) = Ok (st, evs) -> ~ In OFlush (map fst ops3) ->
  exists e1 e2, evs = e1 ++ e2 /\ length e2 = length ops3 /\ flushes e2 = [] /\ accepted e2 = [].
Proof. exact timer_ends. Qed.
Print Assumptions C34_timer_ends_partial.

(** C36 and C62: the first message with a key of a partition goes to the leader that the
    metadata name for the partition of the key, unless they report an error for it: then
    this error is returned and nothing else happens. *)
Theorem C62_first_message_partial : forall zip g m r key v r1 r2 r3 ec leader,
  let pid := murmur_spec key mod zlen (m_meta m) in
  0 < zlen (m_meta m) < 2 ^ 31 -> bytes_ok key -> buf (m_heap m) r = key -> NoDup (map fst (m_meta m)) -> In (pid, (ec, leader)) (m_meta m) ->
  (forall i, ~ In (pid, i) (m_pids m)) -> a_before r1 = [] -> a_between r1 = [] -> a_conn r1 = None ->
  (ec <> 0 -> addMessage zip g m (Some r) v r1 r2 r3 = Ok (m, code_error ec, None)) /\
  (ec = 0 -> forall m' e t, addMessage zip g m (Some r) v r1 r2 r3 = Ok (m', e, t) -> e = None /\ t = Some (mkTaken (length (m_sps m)) pid leader)).
Proof. exact first_keyed. Qed.
Print Assumptions C62_first_message_partial.

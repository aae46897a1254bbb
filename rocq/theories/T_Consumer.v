(** Properties of partition consumers. *)
From Verif Require Import Base BaseFacts Wire RecordSpec Records RecordFacts Responses Fetch FetchSpec FetchFacts FetchKeep DeliverFacts FetchShort FetchRefute Consumer ConsumerSpec ConsumerFacts ConsumerRefute FetchGrow GrowRun ConsumerStop.

(** *** C09, responses that end early *)
(** The record set may be cut at any byte [c] (also inside compressed batches), and the
    connection may fail after any number [k] of bytes: what is emitted is a beginning of
    the messages of the batches, then at most one error. *)
Theorem C09_fetch_cut_prefix_partial : forall unzip zip v st p ws c k chunks fin,
  (v = 0 \/ v = 7 \/ v = 10) -> wf_presp p -> pr_records p = firstn c (flat_map enc_wb ws) ->
  Forall (wf_wb unzip) ws -> Forall (rejects_cuts unzip) ws ->
  concat chunks = enc_presp v p -> fields_ok chunks (length (enc_presp_head v p)) (part_fields v p) ->
  exists ms evs s', prefix ms (exp_all (pr_topic p) (pr_pid p) st ws) /\
    (evs = ms \/ exists e, evs = ms ++ [EvErr e]) /\
    streamDecode unzip zip v st (zlen (enc_presp v p)) (mkStream (trunc k chunks) fin) = Ok (evs, s').
Proof. exact stream_cut. Qed.
Print Assumptions C09_fetch_cut_prefix_partial.
Definition b89 : wbatch := mkWB (hdr 8 0 2) [rec 0 [107] [4]; rec 1 [107] [5]] (flat_map enc_srecord [rec 0 [107] [4]; rec 1 [107] [5]]).
Definition whole : presp := resp (flat_map enc_wb [b567; b89]).
(** the connection fails in the second batch *)
Example C09_ex_cut : exists s', streamDecode err0 err0 10 5 (zlen (enc_presp 10 whole)) (mkStream (trunc 220 [enc_presp 10 whole]) EPipe) =
  Ok (evs567 ++ [EvErr (EWrap EPipe)], s').
Proof. eexists. vm_compute. reflexivity. Qed.

(** *** C11, the fetch loop *)
(** The loop asks again and again from the same position, each time for twice as many
    bytes, until it hands out the first message; nothing else happens before. *)
Theorem C11_loop_grows_partial : forall unzip zip c answers v st from p w ws r rs max,
  (v = 0 \/ v = 7 \/ v = 10) -> wf_resp p -> Forall (plain unzip) (w :: ws) ->
  wb_recs w = r :: rs -> st <= sb_base (wb_h w) + sr_od r -> 0 < max < 2 ^ 31 -> 61 + zlen (enc_srecord r) <= 2 ^ 30 ->
  exists n s', drive unzip zip c answers (S n) v p (flat_map enc_wb (w :: ws)) (cinit st from max)
    = Ok (s', map (fun k => TFetch st (max * 2 ^ Z.of_nat k)) (seq 0 (S n)) ++ [TMsg (pr_topic p) (pr_pid p) (exp_msg (wb_h w) r)]).
Proof. exact drive_delivers. Qed.
Print Assumptions C11_loop_grows_partial.
Example C11_ex_loop : Forall (plain err0) [b567; b89] /\ exists s',
  drive err0 err0 cfg3 (fun _ => (Err ETimeout, [])) 4 10 (resp []) (flat_map enc_wb [b567; b89]) (cinit 5 false 9)
  = Ok (s', [TFetch 5 9; TFetch 5 18; TFetch 5 36; TFetch 5 72; TMsg [116] 3 (m567 5 1)]).
Proof.
  split; [repeat constructor; wf|]. eexists. vm_compute. reflexivity.
Qed.

(** *** C38 *)
(** Guard ([fields_ok] in [honest]): the small fields before the record set do not
    straddle two reads. *)
Theorem C38_in_order_partial : forall unzip zip c L start from mx ops s' t,
  log_ok unzip L -> honest_run unzip zip c L (cinit start from mx) ops -> crun c (cinit start from mx) ops = Ok (s', t) ->
  in_order (k_topic c) (k_part c) (log_msgs L) start t.
Proof. exact consumer_in_order. Qed.
Print Assumptions C38_in_order_partial.

(** The first fetch breaks in the second batch, the second starts inside that batch and
    is cut by the broker after its first record's batch. *)
Definition run38 : list cop :=
  [OFetch (Ok (evs567 ++ [EvErr (EWrap EPipe)])); ONext (Err ETimeout) []; OAdvance; ONext (Err ETimeout) []; OAdvance;
   ONext (Err ETimeout) []; OAdvance; ONext (Err ETimeout) []; OFetch (Err EConn);
   OFetch (Ok [EvMsg [116] 3 (m567 8 4); EvMsg [116] 3 (m567 9 5)]); ONext (Err ETimeout) []; OAdvance; ONext (Err ETimeout) []; OAdvance].
Example C38_ex_log : log_ok err0 [b567; b89].
Proof.
  split; [apply Forall_cons; [wf|apply Forall_cons; [wf|apply Forall_nil]]|].
  split; [apply Forall_cons; [left; reflexivity|apply Forall_cons; [left; reflexivity|apply Forall_nil]]|].
  split; repeat constructor.
Qed.
Definition evs89 : list event := [EvMsg [116] 3 (m567 8 4); EvMsg [116] 3 (m567 9 5)].
Lemma whole_wf : wf_presp whole. Proof. wf. Qed.
Lemma honest_broken : honest err0 err0 [116] 3 [b567; b89] 5 (Ok (evs567 ++ [EvErr (EWrap EPipe)])).
Proof.
  eapply (H_broken _ _ _ _ _ _ 10 whole [] [b567; b89] [] 1000 220 [enc_presp 10 whole] EPipe);
    [reflexivity|constructor|auto|exact whole_wf|reflexivity|reflexivity|vm_compute; reflexivity|apply app_nil_r| |vm_compute; reflexivity].
  apply fields_ok_one. vm_compute. lia.
Qed.
Lemma honest_later : honest err0 err0 [116] 3 [b567; b89] 8 (Ok evs89).
Proof.
  eapply (H_data _ _ _ _ _ _ 7 whole [] [b567; b89] [] 1000 [9; 9] [firstn 100 (enc_presp 7 whole); skipn 100 (enc_presp 7 whole) ++ [9; 9]] EPipe);
    [reflexivity|constructor|auto|exact whole_wf|reflexivity|reflexivity|vm_compute; reflexivity|vm_compute; reflexivity| |vm_compute; reflexivity].
  apply fields_first. vm_compute. lia.
Qed.
Example C38_ex_honest : honest_run err0 err0 cfg3 [b567; b89] (cinit 5 false 1000) run38.
Proof.
  eapply honest_cons; [vm_compute; reflexivity|exact honest_broken|].
  do 8 (eapply honest_cons; [vm_compute; reflexivity|first [exact I|apply H_fail]|]).
  eapply honest_cons; [vm_compute; reflexivity|exact honest_later|]. do 4 (eapply honest_cons; [vm_compute; reflexivity|exact I|]). exact I.
Qed.
Example C38_ex_run : exists s', crun cfg3 (cinit 5 false 1000) run38 =
  Ok (s', [TFetch 5 1000; TMsg [116] 3 (m567 5 1); TMsg [116] 3 (m567 6 2); TMsg [116] 3 (m567 7 3); TFetch 8 1000; TFetch 8 1000;
           TMsg [116] 3 (m567 8 4); TMsg [116] 3 (m567 9 5)]).
Proof. eexists. vm_compute. reflexivity. Qed.

(** Finding: when the four bytes of the record set's size arrive in two reads, a message
    that is not in the log is handed out, and the position jumps. *)
Theorem C38_split_size_refuted : exists L p a b evs s s' t,
  log_ok err0 L /\ wf_presp p /\ pr_records p = flat_map enc_wb L /\ enc_presp 10 p = a ++ b /\
  streamDecode err0 err0 10 1 (zlen (enc_presp 10 p)) (mkStream [a; b] ETimeout) = Ok (evs, s) /\
  crun cfg3 (cinit 1 false 1000) [OFetch (Ok evs); ONext (Err ETimeout) []; OAdvance] = Ok (s', t) /\
  ~ in_order [116] 3 (log_msgs L) 1 t /\ resets t = [] /\ c_off s' = 504403158265495553.
Proof. exact split_out_of_order. Qed.
Print Assumptions C38_split_size_refuted.

(** *** C39 *)
(** Whatever the fetches answer, each offset in a commit request was the position at an
    earlier moment: one past the last message handed out, or where a reset went. *)
Theorem C39_commit_is_position_partial : forall c start from mx ops s' t,
  crun c (cinit start from mx) ops = Ok (s', t) -> (forall m, In m (msgs t) -> i64 (m_offset m + 1)) ->
  forall t1 v ok t2, t = t1 ++ TCommit v ok :: t2 -> exists a, prefix a t1 /\ v = position start a.
Proof. exact consumer_commit_positions. Qed.
Print Assumptions C39_commit_is_position_partial.
(** With a broker as in C38, everything in the log between the last reset and the
    committed offset was handed out before the commit. *)
Theorem C39_committed_was_delivered_partial : forall unzip zip c L start from mx ops s' t,
  log_ok unzip L -> honest_run unzip zip c L (cinit start from mx) ops -> crun c (cinit start from mx) ops = Ok (s', t) ->
  forall t1 v ok t2, t = t1 ++ TCommit v ok :: t2 ->
  exists a, prefix a t1 /\ v = position start a /\
    forall m, In m (log_msgs L) -> fst (segment start a) <= m_offset m < v -> In m (snd (segment start a)).
Proof. exact consumer_committed_delivered. Qed.
Print Assumptions C39_committed_was_delivered_partial.
(** Guard: one CommitOffset call at a time. *)
Theorem C39_commits_ordered_partial : forall unzip zip c L start from mx ops s' t,
  log_ok unzip L -> honest_run unzip zip c L (cinit start from mx) ops -> serial c (cinit start from mx) ops ->
  crun c (cinit start from mx) ops = Ok (s', t) -> resets t = [] ->
  StronglySorted Z.le (commits t) /\ Forall (Z.le start) (commits t).
Proof. exact consumer_serial_commits. Qed.
Print Assumptions C39_commits_ordered_partial.
(** A commit is made when there is something to commit: the first one of a consumer that is in
    a group sends its position and, when it succeeds, that is what is remembered. *)
Theorem C39_first_commit : forall c start from mx ops s t, crun c (cinit start from mx) ops = Ok (s, t) -> (forall o, ~ In (TCommit o true) t) ->
  c_fly s = [] -> k_belongs c = true \/ k_group c = true -> 0 < c_off s ->
  exists s', crun c s [OCommit; OBuild 0; OSent 0 true true] = Ok (s', [TCommit (c_off s) true]) /\ c_com s' = c_off s.
Proof. exact first_commit. Qed.
Print Assumptions C39_first_commit.
Example C39_first_ex : exists s', crun cfgg (cinit 1 false 1000) [OCommit; OBuild 0; OSent 0 true true; OCommit] = Ok (s', [TCommit 1 true]).
Proof. eexists. vm_compute. reflexivity. Qed.
(** Finding: the timer's commit and an explicit one overlap, and the smaller offset is
    sent last. *)
Theorem C39_commits_go_back_refuted : exists L ops s' t, log_ok err0 L /\ honest_run err0 err0 cfgg L (cinit 5 false 1000) ops /\
  crun cfgg (cinit 5 false 1000) ops = Ok (s', t) /\ resets t = [] /\ commits t = [7; 6].
Proof. exact commits_go_back. Qed.
Print Assumptions C39_commits_go_back_refuted.
Definition run39 : list cop :=
  [OFetch (Ok evs567); ONext (Err ETimeout) []; OCommit; OSent 0 true false; OAdvance; OCommit; ONext (Err ETimeout) []; OAdvance; OSent 0 true true; OCommit; OSent 0 true true].
Example C39_ex : honest_run err0 err0 cfgg [b567] (cinit 5 false 1000) run39 /\ serial cfgg (cinit 5 false 1000) run39 /\
  exists s', crun cfgg (cinit 5 false 1000) run39 =
    Ok (s', [TFetch 5 1000; TMsg [116] 3 (m567 5 1); TCommit 5 false; TMsg [116] 3 (m567 6 2); TCommit 6 true; TCommit 7 true]).
Proof.
  split; [eapply honest_cons; [vm_compute; reflexivity|exact honest567|]; do 10 (eapply honest_cons; [vm_compute; reflexivity|exact I|]); exact I|].
  split; [do 11 (eapply serial_cons; [vm_compute; reflexivity|first [exact I|reflexivity]|]); exact I|]. eexists. vm_compute. reflexivity.
Qed.

(** *** C40 *)
Theorem C40_group_commits_nonnegative_partial : forall c, k_belongs c = true -> forall ops s s' t,
  crun c s ops = Ok (s', t) -> Forall (fun v => 0 <= v) (commits t).
Proof. exact group_commits_nonneg. Qed.
Print Assumptions C40_group_commits_nonnegative_partial.
(** Guard for consumers outside a group consumer: lookups after an out-of-range error
    did not fail and gave no negative offset. *)
Theorem C40_commits_nonnegative_partial : forall c start from mx ops s' t,
  crun c (cinit start from mx) ops = Ok (s', t) -> 0 <= start ->
  (forall m, In m (msgs t) -> 0 <= m_offset m < 2 ^ 63 - 1) -> (forall w o, In (w, o) (resets t) -> 0 <= o) ->
  Forall (fun v => 0 <= v) (commits t).
Proof. exact consumer_commits_nonneg. Qed.
Print Assumptions C40_commits_nonnegative_partial.
Theorem C40_negative_commit_refuted : exists ops s' t, crun cfgs (cinit 5 false 1000) ops = Ok (s', t) /\ commits t = [-1].
Proof. exact negative_commit. Qed.
Print Assumptions C40_negative_commit_refuted.
Example C40_ex : (exists s', crun cfgg (cinit 5 false 1000) [OFetch (Ok [EvErr (EKafka 1)]); ONext (Err ETimeout) []; OCommit; OSent 0 true true] =
    Ok (s', [TFetch 5 1000; TReset (-1) (-1)])) /\
  exists s', crun cfgs (cinit 5 true 1000) [OFetch (Ok [EvErr (EKafka 1)]); ONext (Ok (offs 12)) []; OCommit; OBuild 0; OSent 0 false true] =
    Ok (s', [TFetch 5 1000; TReset (-2) 12; TCommit 12 true]).
Proof. split; eexists; vm_compute; reflexivity. Qed.

(** *** C41 *)
(** An out-of-range error moves the position to what the broker answers for the time
    that [fromBeginning] stands for. *)
Theorem C41_reset_position_partial : forall c s e rest o r ls,
  c_pend s = Some (EvErr e :: rest) -> c_adv s = None -> err_root e = EKafka 1 ->
  offsets_answer (k_topic c) (k_part c) o r ->
  exists s', cstep c s (ONext (Ok r) ls) = Ok (s', [TReset (if c_from s then -2 else -1) o]) /\ c_off s' = o /\ c_pend s' = None.
Proof. exact reset_position. Qed.
Print Assumptions C41_reset_position_partial.
(** Guard: the start position came from the log, not from a commit or the caller. *)
Theorem C41_reset_like_start_partial : forall c from0 start leaders cs fo r rest o mx ops s' t, reaches_leader leaders ->
  start = -1 \/ start = -2 -> no_commit c cs -> Forall (failed_o (k_topic c)) fo -> offsets_answer (k_topic c) (k_part c) o r ->
  forall pos from, startOffset c from0 start leaders cs (fo ++ Some (Ok r) :: rest) = Done (pos, from) ->
  crun c (cinit pos from mx) ops = Ok (s', t) -> Forall (fun x => fst x = start) (resets t).
Proof. exact reset_like_start. Qed.
Print Assumptions C41_reset_like_start_partial.
(** Findings: started with "beginning" (-2) and a committed offset, a reset asks for the
    end (-1); and for partition 1 a header split between two reads looks like an
    out-of-range error although the broker reported none. *)
Theorem C41_committed_start_refuted : exists leaders cs os pos from ops s' t,
  reaches_leader leaders /\ startOffset cfgs false (-2) leaders cs os = Done (pos, from) /\
  crun cfgs (cinit pos from 1000) ops = Ok (s', t) /\ resets t = [(-1, 99)].
Proof. exact committed_reset_end. Qed.
Print Assumptions C41_committed_start_refuted.
Theorem C41_split_header_refuted : exists a b s, wf_presp p1 /\ enc_presp 10 p1 = a ++ b /\
  streamDecode err0 err0 10 7 (zlen (enc_presp 10 p1)) (mkStream [a; b] ETimeout) = Ok ([EvErr (EKafka 1)], s).
Proof. exact split_out_of_range. Qed.
Print Assumptions C41_split_header_refuted.
Example C41_ex : exists s', crun cfgs (cinit 5 true 1000) [OFetch (Ok [EvErr (EWrap (EKafka 1))]); ONext (Ok (offs 12)) []; OFetch (Err ETimeout)] =
  Ok (s', [TFetch 5 1000; TReset (-2) 12; TFetch 12 1000]).
Proof. eexists. vm_compute. reflexivity. Qed.

(** *** C42 *)
Theorem C42_explicit : forall c from0 start leaders cs os, reaches_leader leaders -> start <> -1 -> start <> -2 ->
  startOffset c from0 start leaders cs os = Done (start, from0).
Proof. exact start_explicit. Qed.
Print Assumptions C42_explicit.
Theorem C42_committed : forall c from0 start leaders fs r rest os o, reaches_leader leaders ->
  k_group c = true -> (k_storage c = 0 \/ k_storage c = 1) -> start = -1 \/ start = -2 ->
  Forall failed_r fs -> fetched (k_topic c) (k_part c) o r -> 0 <= o ->
  startOffset c from0 start leaders (fs ++ Ok r :: rest) os = Done (o, from0).
Proof. exact start_committed. Qed.
Print Assumptions C42_committed.
Theorem C42_from_log : forall c from0 start leaders cs fo r rest o, reaches_leader leaders ->
  start = -1 \/ start = -2 -> no_commit c cs -> Forall (failed_o (k_topic c)) fo -> offsets_answer (k_topic c) (k_part c) o r ->
  startOffset c from0 start leaders cs (fo ++ Some (Ok r) :: rest) = Done (o, start =? -2).
Proof. exact start_from_log. Qed.
Print Assumptions C42_from_log.
(** Stopped before the offset is known, Consume returns; the position is the one asked for,
    or -1 after a question for it has failed, also if -2 was asked for. *)
Theorem C42_stopped : forall c from0 start leaders cs fo rest, reaches_leader leaders ->
  start = -1 \/ start = -2 -> no_commit c cs -> Forall (failed_o (k_topic c)) fo ->
  startOffset c from0 start leaders cs (fo ++ None :: rest) = Halted (match fo with [] => start | _ => -1 end, start =? -2).
Proof.
  intros c from0 start leaders cs fo rest Hl Hst Hn Hf. unfold startOffset. rewrite Hl. cbv zeta beta.
  assert (Esp : (start =? -1) || (start =? -2) = true) by (destruct Hst as [->| ->]; reflexivity).
  assert (Eg : (if k_group c && ((start =? -1) || (start =? -2)) then getCommitedOffet (k_storage c) (k_topic c) (k_part c) cs start else Done start) = Done start).
  { destruct Hn as [->|[fs [r' [rest' [o' [-> [Hf' [Hr' [Ho' Hs']]]]]]]]]; [reflexivity|].
    destruct (k_group c); [|reflexivity]. rewrite Esp. cbn [andb]. unfold getCommitedOffet.
    assert (Ess : (k_storage c =? 0) || (k_storage c =? 1) = true) by (destruct Hs' as [->| ->]; reflexivity). rewrite Ess.
    rewrite (committedLoop_found _ _ _ _ _ _ o' Hf' Hr'). destruct (Z.leb_spec 0 o'); [lia|reflexivity]. }
  rewrite Eg, Esp.
  assert (L : forall fo cur, Forall (failed_o (k_topic c)) fo ->
    initLoop (k_topic c) (fo ++ None :: rest) cur = Halted (match fo with [] => cur | _ => -1 end)).
  { induction fo0 as [|f fs IH]; intros cur F; [reflexivity|]. inversion F as [|? ? [a [e [-> He]]] H2]; subst. cbn [app initLoop]. rewrite He, (IH _ H2).
    destruct fs; reflexivity. }
  rewrite (L fo start Hf). reflexivity.
Qed.
Print Assumptions C42_stopped.
Example C42_ex : let ls := [Some (mkLT (Err ETimeout) false false); Some (mkLT (Ok (-1)) false false); Some (mkLT (Ok 2) true true)] in
  let nothing := Ok (ROffsetFetch 1 [([116], [(3, (-1, ([], 0)))])]) in
  startOffset cfgs false 77 ls [] [] = Done (77, false) /\
  startOffset cfgs false (-2) ls [Err ETimeout; Ok (ROffsetFetch 1 [([116], [(3, (42, ([], 0)))])])] [] = Done (42, false) /\
  startOffset cfgs false (-2) ls [nothing] [Some (Err ETimeout); Some (Ok (ROffsets 1 0 [([116], [(3, (6, ([], (0, 0))))])])); Some (Ok (offs 12))] = Done (12, true) /\
  startOffset cfgs false (-1) ls [nothing] [Some (Ok (offs 99))] = Done (99, false).
Proof. vm_compute. repeat split. Qed.

(** *** C63 *)
(** Without an error event the connection is left right behind the response by the time
    the consumer goes on. *)
Theorem C63_no_error_drained_partial : forall unzip zip v st body rest chunks fin evs s,
  concat chunks = body ++ rest -> streamEmit unzip zip v st (zlen body) (mkStream chunks fin) = Ok (evs, s) ->
  (forall e, ~ In (EvErr e) evs) -> concat (st_chunks (d_in s)) = rest.
Proof. exact emit_drained. Qed.
Print Assumptions C63_no_error_drained_partial.
(** Findings: after an error event the rest of the response is still unread when the
    consumer may already send the next fetch; and a timeout while the response header is
    read yields no event at all, so that the connection stays in use with the rest of the
    response to come. *)
Theorem C63_error_before_drain_refuted : exists p chunks rest evs s, wf_presp p /\
  concat chunks = enc_presp_head 10 p ++ (enc_presp_part 10 6 p ++ pr_records p) ++ rest /\
  streamEmit err0 err0 10 5 (zlen (enc_presp_head 10 p ++ enc_presp_part 10 6 p ++ pr_records p)) (mkStream chunks ETimeout) = Ok (evs, s) /\
  evs = [EvErr (EKafka 6)] /\ concat (st_chunks (d_in s)) <> rest.
Proof. exact error_before_drain. Qed.
Print Assumptions C63_error_before_drain_refuted.
Theorem C63_header_timeout_refuted : exists p k s, wf_presp p /\ (0 < k < length (enc_presp 10 p))%nat /\
  streamDecode err0 err0 10 5 (zlen (enc_presp 10 p)) (mkStream [firstn k (enc_presp 10 p)] ETimeout) = Ok ([], s).
Proof. exact header_timeout_silent. Qed.
Print Assumptions C63_header_timeout_refuted.
Example C63_ex : exists s, streamEmit err0 err0 10 5 (zlen (enc_presp 10 whole)) (mkStream [enc_presp 10 whole ++ [1; 2]] EPipe) =
  Ok (evs567 ++ [EvMsg [116] 3 (m567 8 4); EvMsg [116] 3 (m567 9 5)], s) /\ concat (st_chunks (d_in s)) = [1; 2].
Proof. eexists. split; vm_compute; reflexivity. Qed.

(** *** C64 *)
(** Guard: the broker is known to the client (has a cached handle). *)
Theorem C64_leader_retry_partial : forall t ts,
  (exists id, lt_find t = Ok id /\ (id = -1 \/ lt_conn t = true \/ lt_cached t = true)) \/ (exists e, lt_find t = Err e) ->
  (exists id, lt_find t = Ok id /\ id <> -1 /\ lt_conn t = true /\ leaderLoop (Some t :: ts) = Done tt) \/
  leaderLoop (Some t :: ts) = leaderLoop ts.
Proof. exact leader_retry. Qed.
Print Assumptions C64_leader_retry_partial.
Theorem C64_unknown_leader_refuted : getLeaderBroker (mkLT (Ok 3) false false) = Panic.
Proof. exact leader_connect_crash. Qed.
Print Assumptions C64_unknown_leader_refuted.
Example C64_ex : leaderLoop [Some (mkLT (Ok 3) false true); Some (mkLT (Ok (-1)) false false); Some (mkLT (Ok 4) true false)] = Done tt.
Proof. reflexivity. Qed.

(** C102: after Stop a partition consumer sends no fetch request, and hands out at most the
    rest of the answer under way, in order.  A fetch whose test of c.stop (line 408) came
    before Stop counts as sent before. *)
Theorem C102_stop : forall c s ops1 ops2 ops3 s' t,
  crun c s (ops1 ++ OCancel :: ops2 ++ OStop :: ops3) = Ok (s', t) ->
  exists s1 t1 t2, crun c s (ops1 ++ OCancel :: ops2 ++ [OStop]) = Ok (s1, t1) /\ t = t1 ++ t2 /\
    fetches t2 = [] /\ (exists lost, under_way s1 = msgs t2 ++ under_way s' ++ lost) /\ (c_live s1 = false -> c_live s' = false).
Proof. exact stop_ends. Qed.
Print Assumptions C102_stop.
(** Three steps of its own end it, whatever it was doing. *)
Theorem C102_ends : forall c s ops1 ops2 s1 t1 r, crun c s (ops1 ++ OCancel :: ops2 ++ [OStop]) = Ok (s1, t1) ->
  exists s', crun c s1 [OAdvance; OAbort; OFetch r] = Ok (s', []) /\ c_live s' = false.
Proof. exact stop_quick. Qed.
Print Assumptions C102_ends.
Example C102_ex : exists s', crun cfgs (cinit 5 false 1000)
  ([OFetch (Ok evs567); ONext (Err ETimeout) []; OAdvance] ++ OCancel :: [ONext (Err ETimeout) []] ++ OStop ::
   [OAdvance; OAbort; OFetch (Ok evs567); OFetch (Ok evs567)]) = Ok (s', [TFetch 5 1000; TMsg [116] 3 (m567 5 1); TMsg [116] 3 (m567 6 2)]) /\
  c_live s' = false /\ c_off s' = 7.
Proof. eexists. split; [vm_compute; reflexivity|]. split; reflexivity. Qed.

(** And it does not end by itself: without Stop, a cancelled request or a leader that is given
    up, it stays alive and can fetch, and the steps that belong to Stop change nothing. *)
Theorem C102_goes_on : forall c off from mx ops s' t, Forall harmless ops -> crun c (cinit off from mx) ops = Ok (s', t) ->
  (c_live s' = true /\ forall evs, c_pend s' = None -> exists s2, cstep c s' (OFetch (Ok evs)) = Ok (s2, [TFetch (c_off s') (c_max s')])) /\
  crun c (cinit off from mx) (filter (fun op => negb (of_stop op)) ops) = Ok (s', t).
Proof. exact goes_on. Qed.
Print Assumptions C102_goes_on.
Example C102_goes_on_ex : exists s', crun cfgs (cinit 5 false 1000)
  [OStop; OFetch (Ok evs567); ONext (Err ETimeout) []; OAbort; OAdvance; OAbort; OStop; ONext (Err ETimeout) []] =
    Ok (s', [TFetch 5 1000; TMsg [116] 3 (m567 5 1); TMsg [116] 3 (m567 6 2)]) /\ c_live s' = true.
Proof. eexists. split; [vm_compute; reflexivity|]. reflexivity. Qed.

(** C103: looking up the start offset does not crash as long as offset answers are errors or
    have the topic with at most one offset. *)
Theorem C103_start_partial : forall c from0 start leaders cs os, leaderLoop leaders <> Crashed -> Forall cm_ok cs -> Forall (usable (k_topic c)) os ->
  startOffset c from0 start leaders cs os <> Crashed.
Proof. exact start_never_crashes. Qed.
Print Assumptions C103_start_partial.
Example C103_ex : Forall (usable [116]) [Some (Err ETimeout); Some (Ok (ROffsets 1 0 [([116], [(3, (6, ([], (0, 0))))])])); Some (Ok (offs 12))] /\
  startOffset cfgs false (-1) [Some (mkLT (Ok 2) true true)] [Ok (ROffsetFetch 1 [])] [Some (Err ETimeout); Some (Ok (ROffsets 1 0 [([116], [(3, (6, ([], (0, 0))))])])); Some (Ok (offs 12))] = Done (12, false).
Proof.
  split; [|vm_compute; reflexivity]. apply Forall_cons; [exact I|]. apply Forall_cons; [|apply Forall_cons; [|apply Forall_nil]].
  - left. exists [116], [(3, (6, ([], (0, 0))))]. split; [left; reflexivity|]. eexists. split; [left; reflexivity|discriminate].
  - right. eexists; eexists. split; [vm_compute; reflexivity|]. cbn. lia.
Qed.
(** Finding: without the topic, or with several offsets, it does. *)
Theorem C103_crash_refuted : exists c leaders, leaderLoop leaders = Done tt /\
  startOffset c false (-1) leaders [] [Some (Ok (ROffsets 1 0 []))] = Crashed /\
  startOffset c false (-1) leaders [] [Some (Ok (ROffsets 1 0 [(k_topic c, [(k_part c, (0, ([5; 3], (0, 0))))])]))] = Crashed.
Proof. exact start_crashes. Qed.
Print Assumptions C103_crash_refuted.

(** C12-C17 and C59: framing, correlation ids, versions, reopening and authentication. *)
From Verif Require Import Base BaseFacts Fetch FetchRefute Conn ConnFacts ConnSync ConnRefute.

(** *** C12 *)
(** A response is [be 4 (length of body)] and its body.  However the bytes of several
    responses are cut into reads, each is returned whole, in order, and the bytes behind
    the last are left unread. *)
Theorem C12_responses_any_chunking_partial : forall bodies cs fin rest,
  concat cs = flat_map (fun b => be 4 (zlen b) ++ b) bodies ++ rest -> Forall (fun b => 4 <= zlen b < 2 ^ 32) bodies ->
  exists cs', read_many (length bodies) (mkStream cs fin) = (map (fun b => Ok (be 4 (zlen b) ++ b)) bodies, cs') /\ concat cs' = rest.
Proof. exact read_many_ok. Qed.
Print Assumptions C12_responses_any_chunking_partial.
Example C12_ex : let cs := [[0; 0]; [0; 5; 1]; [2; 3; 4; 5; 0; 0; 0; 4; 9]; [9; 9; 9; 7]] in
  fst (read_many 2 (mkStream cs ETimeout)) = [Ok [0; 0; 0; 5; 1; 2; 3; 4; 5]; Ok [0; 0; 0; 4; 9; 9; 9; 9]].
Proof. reflexivity. Qed.
(** A response of which not everything arrives gives the error of the connection, never a
    shortened response. *)
Theorem C12_incomplete_response_partial : forall cs fin body rest,
  be 4 (zlen body) ++ body = concat cs ++ rest -> rest <> [] -> zlen body < 2 ^ 32 ->
  read_response (mkStream cs fin) = (Err fin, []).
Proof. exact read_response_short. Qed.
Print Assumptions C12_incomplete_response_partial.
Example C12_ex_incomplete : read_response (mkStream [[0; 0]; [0; 5; 1]; [2; 3; 4]] EEOF) = (Err EEOF, []).
Proof. reflexivity. Qed.
(** Finding: a fetch response whose length prefix arrives in two pieces is rejected and
    the connection closed, although all of it arrives. *)
Theorem C12_fetch_length_refuted : exists s x, newBroker false go = Some s /\ x_write x = None /\ covers x (8 + zlen (x_body x)) /\
  forall unzip zip, fst (requestFetch unzip zip false go 10 0 x s) = Err EShortRead /\
    b_conn (snd (requestFetch unzip zip false go 10 0 x s)) = None.
Proof. exact fetch_length_split. Qed.
Print Assumptions C12_fetch_length_refuted.

(** *** C13 *)
(** [clean_reach]: the handle was created and used by any sequence of requests, fetches
    and closes in which every answer arrived whole before the deadline, or the error was
    one that closes the connection (end of stream, broken pipe), and failed openings left
    no connection.  Then the next request, if it gets an answer at all, gets the answer
    the broker sent to that very request. *)
Theorem C13_own_answer_partial : forall unzip zip sasl s o x raw s',
  clean_reach unzip zip sasl s -> small_o o -> small x ->
  requestAndGet sasl o x s = (Ret (Ok raw), s') -> raw = frame (b_corr s') (x_body x).
Proof. exact own_answer. Qed.
Print Assumptions C13_own_answer_partial.
(** likewise for a fetch: the decoder sees the bytes of the own answer (or of a prefix of
    it, if the rest does not arrive) *)
Theorem C13_own_fetch_partial : forall unzip zip sasl s o v st x evs s',
  clean_reach unzip zip sasl s -> small_o o -> small x ->
  requestFetch unzip zip sasl o v st x s = (Ok evs, s') -> exists cs d n,
    concat cs = firstn n (be 4 (b_corr s') ++ x_body x) /\
    (covers x (8 + zlen (x_body x)) -> concat cs = be 4 (b_corr s') ++ x_body x) /\
    streamDecode unzip zip v st (4 + zlen (x_body x)) (mkStream cs (x_fin x)) = Ok (evs, d).
Proof. exact own_fetch. Qed.
Print Assumptions C13_own_fetch_partial.
Example C13_ex : exists s s', newBroker true go = Some s /\
  requestAndGet true go (gx [7; 8; 9]) (snd (requestAndGet true go (gx [1]) s)) = (Ret (Ok (frame 5 [7; 8; 9])), s').
Proof. eexists _, _. split; [vm_compute; reflexivity|vm_compute; reflexivity]. Qed.
(** An answer that carries an error of Kafka is returned as that error, and the connection is
    kept, ready for the next request. *)
Theorem C13_error_answer_partial : forall sasl s o x c e, b_conn s = Some c -> c_unread c = [] -> small x ->
  x_write x = None -> covers x (8 + zlen (x_body x)) -> x_verdict x = Some (EKafka e) ->
  exists s' c', requestAndGet sasl o x s = (Ret (Err (EKafka e)), s') /\
    b_conn s' = Some c' /\ c_id c' = c_id c /\ c_unread c' = [].
Proof.
  intros sasl s o x c e Hc Hu S W C V. unfold requestAndGet, ensureOpen. rewrite !Hc.
  destruct (exchange_sync KUser x c s S Hu) as [c1 [r [E [Hi [_ Hr]]]]]. unfold requestOpen. rewrite E.
  destruct Hr as [[-> [Hu1 _]]|[[e1 [-> [Hw _]]]|[-> [Hn _]]]]; [|congruence|contradiction].
  cbn [judge]. rewrite V. cbn [close_on closing err_root orb].
  eexists _, c1. split; [reflexivity|]. split; [reflexivity|]. split; assumption.
Qed.
Print Assumptions C13_error_answer_partial.
Example C13_error_answer_ex : exists s, newBroker false go = Some s /\
  fst (requestAndGet false go (mkEx None [7] [9%nat] ETimeout (Some (EKafka 6))) s) = Ret (Err (EKafka 6)).
Proof. eexists. split; [vm_compute; reflexivity|vm_compute; reflexivity]. Qed.
(** Finding: a read that times out is reported wrapped, so that the connection stays
    open; the next request is answered with the late answer to the previous one. *)
Theorem C13_late_answer_refuted : exists s x1 x2 s' raw,
  newBroker false go = Some s /\
  requestAndGet false go x2 (snd (requestAndGet false go x1 s)) = (Ret (Ok raw), s') /\
  x_write x2 = None /\ covers x2 (8 + zlen (x_body x2)) /\ x_verdict x2 = None /\
  raw = frame (b_corr s' - 1) (x_body x1) /\ raw <> frame (b_corr s') (x_body x2).
Proof. exact wrong_answer. Qed.
Print Assumptions C13_late_answer_refuted.

(** *** C14 *)
Theorem C14_correlation_ids : forall unzip zip sasl o l s, newBroker sasl o = Some s ->
  let log := b_log (run unzip zip sasl s l) in
  map w_corr log = map (fun k => Z.of_nat k mod 2 ^ 32) (seq 1 (length log)).
Proof. exact corr_consecutive. Qed.
Print Assumptions C14_correlation_ids.
Theorem C14_correlation_ids_distinct : forall unzip zip sasl o l s i j wi wj, newBroker sasl o = Some s ->
  let log := b_log (run unzip zip sasl s l) in
  nth_error log i = Some wi -> nth_error log j = Some wj -> (i < j)%nat -> Z.of_nat j - Z.of_nat i < 2 ^ 32 ->
  w_corr wi <> w_corr wj.
Proof. exact corr_distinct. Qed.
Print Assumptions C14_correlation_ids_distinct.
Example C14_ex : exists s, newBroker true go = Some s /\
  let log := b_log (run err0 err0 true s [OReq go (gx [1]); OClose; OFetch go 10 0 (gx [2]); OReq go (late [3])]) in
  map w_corr log = [1; 2; 3; 4; 5; 6; 7; 8; 9] /\ map w_conn log = [0; 0; 0; 0; 1; 1; 1; 1; 2]%nat.
Proof. eexists. split; [vm_compute; reflexivity|]. vm_compute. split; reflexivity. Qed.

(** *** C15 *)
(** If client and broker share a version, the highest shared one is used. *)
Theorem C15_highest_common_partial : forall avs k v0, In v0 (availableVersions k) -> announced avs k v0 ->
  let v := getHighestAvailableAPIVersion avs k in
  In v (availableVersions k) /\ announced avs k v /\
  forall v', In v' (availableVersions k) -> announced avs k v' -> v' <= v.
Proof. exact version_chosen. Qed.
Print Assumptions C15_highest_common_partial.
Example C15_ex : getHighestAvailableAPIVersion [(0, 0, 8); (1, 4, 9); (3, 1, 5)] 1 = 7 /\
  getHighestAvailableAPIVersion [(0, 0, 8); (1, 4, 9); (3, 1, 5)] 3 = 4.
Proof. split; reflexivity. Qed.
(** Otherwise, and for every API without a list of versions, version 0 is used. *)
Theorem C15_fallback : forall avs k, (forall v, In v (availableVersions k) -> ~ announced avs k v) ->
  getHighestAvailableAPIVersion avs k = 0.
Proof. exact version_none. Qed.
Print Assumptions C15_fallback.
(** Findings: this version may be one the broker does not support (JoinGroup from version
    2 on), or one the client does not implement (Metadata 0). *)
Theorem C15_not_announced_refuted : let avs := [(11, 2, 9)] in
  (forall v, announced avs 11 v <-> 2 <= v <= 9) /\ getHighestAvailableAPIVersion avs 11 = 0.
Proof. exact version_not_announced. Qed.
Print Assumptions C15_not_announced_refuted.
Theorem C15_not_implemented_refuted : let avs := [(3, 0, 0)] in
  announced avs 3 0 /\ ~ In 0 (availableVersions 3) /\ getHighestAvailableAPIVersion avs 3 = 0.
Proof. exact version_not_implemented. Qed.
Print Assumptions C15_not_implemented_refuted.

(** *** C16 *)
(** [fine_reach]: failed attempts to open left no connection behind.  Then every request
    of the user was written on a connection whose authentication had succeeded (without
    SASL a connection counts as authenticated from the start). *)
Theorem C16_authenticated_partial : forall unzip zip sasl s, fine_reach unzip zip sasl s ->
  Forall (fun w => w_kind w = KUser -> w_auth w = true) (b_log s).
Proof. exact authenticated. Qed.
Print Assumptions C16_authenticated_partial.
Example C16_ex : exists s, newBroker true go = Some s /\ fine_reach err0 err0 true s /\
  map (fun w => (w_kind w, w_auth w)) (b_log (snd (requestAndGet true go (gx [1]) s))) =
  [(KVersions, false); (KSasl, false); (KSasl, false); (KUser, true)].
Proof. eexists. split; [vm_compute; reflexivity|]. split; [apply (fr_new _ _ _ go); vm_compute; reflexivity|vm_compute; reflexivity]. Qed.
(** Findings: after a failed reopening the half-opened connection stays in the handle and
    the next request goes out unauthenticated: when the version exchange timed out, and
    when the credentials were rejected. *)
Theorem C16_after_reopen_refuted : exists s o1 x1 x2 w,
  newBroker true go = Some s /\
  let s' := run err0 err0 true s [OClose; OReq o1 x1; OReq o1 x2] in
  In w (b_log s') /\ w_kind w = KUser /\ w_auth w = false.
Proof. exact unauthenticated_after_reopen. Qed.
Print Assumptions C16_after_reopen_refuted.
Theorem C16_after_failed_sasl_refuted : exists s o1 x w,
  newBroker true go = Some s /\ x_verdict (o_au o1) = Some (EKafka 58) /\
  let s' := run err0 err0 true s [OClose; OFetch o1 10 0 x; OFetch o1 10 0 x] in
  In w (b_log s') /\ w_kind w = KUser /\ w_auth w = false.
Proof. exact unauthenticated_after_failed_sasl. Qed.
Print Assumptions C16_after_failed_sasl_refuted.

(** *** C17 *)
(** Without SASL a closed handle opens a new connection on the next request, which is
    answered on it. *)
Theorem C17_reopens_partial : forall s o x, b_conn s = None -> o_dial o = None -> small (o_ver o) -> small x ->
  x_write (o_ver o) = None -> covers (o_ver o) (8 + zlen (x_body (o_ver o))) -> x_verdict (o_ver o) = None ->
  x_write x = None -> covers x (8 + zlen (x_body x)) -> x_verdict x = None ->
  exists s' c, requestAndGet false o x s = (Ret (Ok (frame (b_corr s') (x_body x))), s') /\
    b_conn s' = Some c /\ c_id c = b_next s /\ c_unread c = [].
Proof. exact reopens. Qed.
Print Assumptions C17_reopens_partial.
Theorem C17_no_deadlock_without_sasl_partial : forall o x s, fst (requestAndGet false o x s) <> Blocked.
Proof. exact no_sasl_no_deadlock. Qed.
Print Assumptions C17_no_deadlock_without_sasl_partial.
(** A fetch never blocks on opening, with or without SASL. *)
Theorem C17_fetch_no_deadlock_partial : forall sasl o s, fst (ensureOpen sasl false o s) <> Blocked.
Proof. exact fetch_no_deadlock. Qed.
Print Assumptions C17_fetch_no_deadlock_partial.
Example C17_ex : exists s, newBroker false go = Some s /\
  fst (requestAndGet false go (gx [7]) (close s)) = Ret (Ok (frame 3 [7])).
Proof. eexists. split; [vm_compute; reflexivity|vm_compute; reflexivity]. Qed.
(** Finding: with SASL, every request on a closed handle whose reopening gets as far as
    the authentication waits for ever for the lock its own goroutine holds. *)
Theorem C17_sasl_reopen_refuted : forall s o x, b_conn s = None -> o_dial o = None -> small (o_ver o) ->
  x_write (o_ver o) = None -> covers (o_ver o) (8 + zlen (x_body (o_ver o))) -> x_verdict (o_ver o) = None ->
  fst (requestAndGet true o x s) = Blocked.
Proof. exact sasl_deadlock. Qed.
Print Assumptions C17_sasl_reopen_refuted.
Example C17_ex_deadlock : exists s, newBroker true go = Some s /\
  fst (requestAndGet true go (gx [7]) (close s)) = Blocked.
Proof. eexists. split; [vm_compute; reflexivity|vm_compute; reflexivity]. Qed.

(** *** C59 *)
(** Requests and closes one after the other never dereference a nil connection. *)
Theorem C59_serial_close_partial : forall l c, exists c',
  irun c (flat_map (fun r : option nat => match r with Some n => request_trace n | None => [IClose] end) l) = Some c'.
Proof. exact serial_close_safe. Qed.
Print Assumptions C59_serial_close_partial.
(** Finding: a Close between two uses of the connection by a request crashes. *)
Theorem C59_concurrent_close_refuted : forall n, exists a b,
  request_trace (S n) = a ++ b /\ forall c, irun c (a ++ IClose :: b) = None.
Proof. exact concurrent_close_crash. Qed.
Print Assumptions C59_concurrent_close_refuted.
Example C59_ex : irun false [ICheck; IUse; IClose; ICheck; IUse] = Some true /\ irun false [ICheck; IUse; IClose; IUse] = None.
Proof. split; reflexivity. Qed.

(** C113: the request a call sends asks for what the caller asked. *)
From Coq Require Import Permutation.
From Verif Require Import Base BaseFacts Wire WireFacts Records Requests RequestSpec RequestPrep RequestRefute BuildersSpec Calls CallsSpec CallsFacts.

(** Whatever the call and its arguments, whatever the version negotiated: if the values
    asked for fit in the protocol's fields, a broker reads from the bytes sent the API of
    the call, the version, the correlation id, the client id and exactly the values asked
    for.  [ord] is the order in which a Go map is walked. *)
Theorem C113_asked_partial : forall zip ord client c v corr rest, (forall l, Permutation (ord l) l) ->
  call_limits c v -> sends_client c = true -> (exists x, says c v x) ->
  (forall x, says c v x -> val_wf x /\ zlen (val_bytes x) + zlen client + 15 < 2 ^ 31) ->
  i16 v -> i32 corr -> zlen client < 2 ^ 15 ->
  exists r out r' x, call_request ord client c = Some r /\ prepare zip corr v r = Ok (out, r') /\ says c v x /\
    broker_reads (call_key c) v (projT1 x) (out ++ rest) = Some (zlen out - 4, (call_key c, v, corr, Some client), projT2 x, rest).
Proof.
  intros zip ord client c v corr rest P L Hs S W Hv Hc Hcl. pose proof (call_sent zip ord client c v corr rest P L S W Hv Hc Hcl) as H.
  rewrite Hs in H. exact H.
Qed.
Print Assumptions C113_asked_partial.
(** Offsets of partitions 2 and 5 of topic "t", partition 2 named twice: *)
Example C113_ex : exists r out r', call_request (@rev Z) [99] (CKOffsets [116] [2; 5; 2] (-1) 1) = Some r /\
  prepare noz 7 1 r = Ok (out, r') /\
  broker_reads 2 1 S_ListOffsets_1 out = Some (zlen out - 4, (2, 1, 7, Some [99]), ((-1), [([116], [(5, (-1)); (2, (-1))])]), []).
Proof. eexists _, _, _. split; [reflexivity|]. split; [vm_compute; reflexivity|]. vm_compute. reflexivity. Qed.
Example C113_ex_fetch : exists r out r', call_request (@rev Z) [99] (CKFetch [116] 3 42 100 1 1024 7) = Some r /\
  prepare noz 8 10 r = Ok (out, r') /\
  broker_reads 1 10 S_Fetch_10 out = Some (zlen out - 4, (1, 10, 8, Some [99]),
    ((-1), (100, (1, (1024, (0, (0, (0, ([([116], [(3, (7, (42, (0, 1024))))])], [])))))))), []).
Proof. eexists _, _, _. split; [reflexivity|]. split; [vm_compute; reflexivity|]. vm_compute. reflexivity. Qed.
Example C113_ex_says : says (CKListReassignments 5 [([97], 1); ([98], 0); ([97], 1)]) 0
  (V S_ListReassign_0 (5, (Some [([97], ([1], [])); ([98], ([0], []))], []))).
Proof.
  exists [([97], [1]); ([98], [0])]. split; [|reflexivity]. split.
  - split; [repeat constructor; cbn; intuition discriminate|]. repeat constructor; cbn; try discriminate; tauto.
  - intros t p. unfold names. cbn. split.
    + intros [ps [[E|[E|[]]] Hp]]; injection E as <- <-; destruct Hp as [<-|[]]; auto.
    + intros [E|[E|[E|[]]]]; injection E as <- <-; [exists [1]|exists [0]|exists [1]]; cbn; auto.
Qed.

(** No request is made exactly for topics named twice, a setting of offsets.storage other
    than 0 and 1, and mechanisms other than PLAIN (where the process ends, C99). *)
Theorem C113_refused : forall ord client c, call_request ord client c = None <-> refused c.
Proof. exact call_refused. Qed.
Print Assumptions C113_refused.
Example C113_ex_refused : call_request (@rev Z) [99] (CKCreateTopics [[97]; [98]; [97]] 1 1 1000) = None /\
  call_request (@rev Z) [99] (CKCreateTopics [[97]; [98]] 3 1 1000) =
  Some (new_header 19 0 (Some [99]), QCreateTopics [([97], (3, (1, ([], [])))); ([98], (3, (1, ([], []))))] 1000).
Proof. split; reflexivity. Qed.

(** Finding: elections and reassignments are sent without a client id. *)
Theorem C113_client_id_refuted : forall zip ord client c v corr rest, (forall l, Permutation (ord l) l) ->
  sends_client c = false -> v = 0 ->
  (forall x, says c v x -> val_wf x /\ zlen (val_bytes x) + zlen client + 15 < 2 ^ 31) -> i32 corr -> zlen client < 2 ^ 15 ->
  exists r out r' x, call_request ord client c = Some r /\ prepare zip corr v r = Ok (out, r') /\ says c v x /\
    broker_reads (call_key c) v (projT1 x) (out ++ rest) = Some (zlen out - 4, (call_key c, v, corr, None), projT2 x, rest).
Proof. exact call_no_client. Qed.
Print Assumptions C113_client_id_refuted.
Example C113_ex_elect : sends_client (CKElectLeaders 1000 [([116], 0)]) = false /\ sends_client (CKAlterReassignments 1000 [([116], (0, [1; 2]))]) = false /\
  exists r out r', call_request (@rev Z) [99] (CKElectLeaders 1000 [([116], 0); ([116], 1)]) = Some r /\ prepare noz 7 0 r = Ok (out, r') /\
  broker_reads 43 0 S_ElectLeaders_0 out = Some (zlen out - 4, (43, 0, 7, None), (Some [([116], [0; 1])], 1000), []).
Proof. split; [reflexivity|]. split; [reflexivity|]. eexists _, _, _. split; [reflexivity|]. split; [vm_compute; reflexivity|]. vm_compute. reflexivity. Qed.

(** Finding: at version 0 a request for more partitions that leaves their placement to the
    broker carries an empty list of assignments instead of none. *)
Theorem C113_no_assignment_refuted : forall zip ord client topic n timeout validate corr rest,
  zlen topic < 2 ^ 15 -> i32 n -> 0 <= timeout < 2 ^ 31 -> i32 corr -> zlen client < 2 ^ 15 ->
  exists r out r', call_request ord client (CKCreatePartitions topic n None timeout validate) = Some r /\
    prepare zip corr 0 r = Ok (out, r') /\
    broker_reads 37 0 S_CreatePartitions_0 (out ++ rest) =
    Some (zlen out - 4, (37, 0, corr, Some client), ([(topic, (n, Some []))], (timeout, validate)), rest).
Proof. exact call_no_assignment. Qed.
Print Assumptions C113_no_assignment_refuted.

(** Finding: the timeouts are uint32 and are sent as they are; a broker reads those of
    2^31 ms and more as negative. *)
Theorem C113_timeout_refuted : forall zip ord client topic n rf timeout corr rest,
  zlen topic < 2 ^ 15 -> i32 n -> i16 rf -> 2 ^ 31 <= timeout < 2 ^ 32 -> i32 corr -> zlen client < 2 ^ 15 ->
  exists r out r', call_request ord client (CKCreateTopics [topic] n rf timeout) = Some r /\
    prepare zip corr 0 r = Ok (out, r') /\
    broker_reads 19 0 S_CreateTopics_0 (out ++ rest) =
    Some (zlen out - 4, (19, 0, corr, Some client), ([(topic, (n, (rf, ([], []))))], timeout - 2 ^ 32), rest).
Proof. exact call_timeout. Qed.
Print Assumptions C113_timeout_refuted.
Example C113_ex_timeout : exists r out r', call_request (@rev Z) [99] (CKCreateTopics [[116]] 3 1 3000000000) = Some r /\ prepare noz 7 0 r = Ok (out, r') /\
  broker_reads 19 0 S_CreateTopics_0 out = Some (zlen out - 4, (19, 0, 7, Some [99]), ([([116], (3, (1, ([], []))))], -1294967296), []).
Proof. eexists _, _, _. split; [reflexivity|]. split; [vm_compute; reflexivity|]. vm_compute. reflexivity. Qed.

(** C18-C20: framing and layout of requests, sending a request object again. *)
From Verif Require Import Base BaseFacts Wire WireFacts Prims Records Requests RequestSpec RequestFacts RequestBodies RequestFlex RequestPrep RequestRefute.

(** *** C18 *)
(** Whatever request is encoded at whatever version: if bytes come out, they are a length
    field holding the number of bytes behind it, then the header the protocol prescribes
    for the API and version, then a body. *)
Theorem C18_framed_partial : forall zip corr v client b out r', 0 <= v ->
  prepare zip corr v (new_request client b) = Ok (out, r') ->
  exists body, out = frame (header_bytes (flexibleb (kafka_key b) v) (kafka_key b) v corr client ++ body).
Proof. exact prepare_ok. Qed.
Print Assumptions C18_framed_partial.
(** [flexibleb] is the protocol's table of flexible versions. *)
Theorem C18_flexible_versions_partial : forall key ver, flexibleb key ver = true <-> is_flexible key ver.
Proof. exact flexibleb_spec. Qed.
Print Assumptions C18_flexible_versions_partial.
(** The encoders do not run over the buffers they allocate ([fits]: the limits of the
    code), and the bytes are the ones of the protocol. *)
Theorem C18_no_overrun_partial : forall zip corr client b v x,
  request_value b v = Some x -> val_wf x -> fits client b v ->
  prepare zip corr v (new_request client b) = Ok (request_bytes b v corr client x, (sent_header client b v corr, b)).
Proof. exact prepare_value. Qed.
Print Assumptions C18_no_overrun_partial.
Definition ex_commit : rbody := QOffsetCommit [103] 5 [109] (-1) [([116], [(0, (42, [])); (1, (7, [120]))])].
Example C18_ex : exists r, prepare noz 9 2 (new_request (Some [99; 99]) ex_commit) =
  Ok ([0; 0; 0; 70] ++ [0; 8; 0; 2; 0; 0; 0; 9; 0; 2; 99; 99] ++
      [0; 1; 103] ++ [0; 0; 0; 5] ++ [0; 1; 109] ++ [255; 255; 255; 255; 255; 255; 255; 255] ++
      [0; 0; 0; 1; 0; 1; 116] ++ [0; 0; 0; 2] ++ [0; 0; 0; 0] ++ [0; 0; 0; 0; 0; 0; 0; 42] ++ [0; 0] ++
      [0; 0; 0; 1] ++ [0; 0; 0; 0; 0; 0; 0; 7] ++ [0; 1; 120], r).
Proof. eexists. vm_compute. reflexivity. Qed.
(** Finding: a fetch request for several partitions of one topic overruns its buffer (the
    length is computed for one partition per topic). *)
Theorem C18_fetch_partitions_refuted : exists b x, (exists ts, b = QFetch (-1) 100 1 1048576 0 0 (-1) ts []) /\
  request_value b 10 = Some x /\ val_wf x /\ prepare noz 7 10 (new_request (Some [99]) b) = Panic.
Proof. exact fetch_many. Qed.
Print Assumptions C18_fetch_partitions_refuted.

(** *** C19 *)
(** A broker that reads requests by the protocol's schemas gets from the bytes sent exactly
    the length, header and field values, and nothing is left over. *)
Theorem C19_broker_reads_partial : forall zip corr client b v x rest,
  request_value b v = Some x -> val_wf x -> fits client b v -> i16 v -> i32 corr -> wf_client client ->
  zlen (request_bytes b v corr client x) < 2 ^ 31 ->
  exists out r', prepare zip corr v (new_request client b) = Ok (out, r') /\
  broker_reads (kafka_key b) v (projT1 x) (out ++ rest) = Some (zlen out - 4, (kafka_key b, v, corr, client), projT2 x, rest).
Proof.
  exact (fun zip corr client b v x rest Hx Hw Hf Hv Hc Hcl Hl =>
    ex_intro _ _ (ex_intro _ _ (conj (prepare_value zip corr client b v x Hx Hw Hf) (broker_reads_request b v corr client x rest Hw Hv Hc Hcl Hl)))).
Qed.
Print Assumptions C19_broker_reads_partial.
Example C19_ex : exists out r, prepare noz 9 5 (new_request None (QListGroups (Some [[83]]) (Some []))) = Ok (out, r) /\
  broker_reads 16 5 S_ListGroups_5 out = Some (zlen out - 4, (16, 5, 9, None), ([[83]], ([], [])), []).
Proof. eexists _, _. split; [vm_compute; reflexivity|vm_compute; reflexivity]. Qed.
(** Produce, version 9: the batches of each partition are concatenated. *)
Theorem C19_produce_9_partial : forall zip corr client txn acks timeout ts ts', payloads zip ts ts' ->
  wf S_Produce_9 (produce_value_9 txn acks timeout ts') ->
  prepare zip corr 9 (new_request client (QProduce txn acks timeout ts)) =
  Ok (request_bytes (QProduce txn acks timeout ts) 9 corr client (V S_Produce_9 (produce_value_9 txn acks timeout ts')),
      (sent_header client (QProduce txn acks timeout ts) 9 corr, QProduce txn acks timeout ts)).
Proof. exact prepare_produce_9. Qed.
Print Assumptions C19_produce_9_partial.
Definition ex_batch : RecordBatch := createRecordBatch 2 0 1000 [new_record (Some [107]) [118]].
Example C19_ex_produce : exists p out r, payloads noz [([116], [(3, [ex_batch])])] [([116], [(3, p)])] /\ zlen p = 70 /\
  prepare noz 9 9 (new_request (Some [99]) (QProduce None (-1) 1000 [([116], [(3, [ex_batch])])])) = Ok (out, r) /\
  broker_reads 0 9 S_Produce_9 out = Some (zlen out - 4, (0, 9, 9, Some [99]), produce_value_9 None (-1) 1000 [([116], [(3, p)])], []).
Proof.
  eexists _, _, _. split; [constructor; [|constructor]; split; [reflexivity|]; constructor; [|constructor]; split; [reflexivity|];
    eexists [_]; split; [constructor; [vm_compute; reflexivity|constructor]|reflexivity]|].
  split; [vm_compute; reflexivity|]. split; [vm_compute; reflexivity|vm_compute; reflexivity].
Qed.
(** Finding: at version 0 (the version used with brokers that do not know version 9) no
    produce request is laid out as the protocol demands. *)
Theorem C19_produce_0_refuted : forall zip corr client txn acks timeout ts ts', payloads zip ts ts' ->
  exists out r, prepare zip corr 0 (new_request client (QProduce txn acks timeout ts)) = Ok (out, r) /\
    out <> request_bytes (QProduce txn acks timeout ts) 0 corr client (V S_Produce_0 (produce_value_0 acks timeout ts')).
Proof. exact produce_0. Qed.
Print Assumptions C19_produce_0_refuted.
(** Finding: every DescribeAcls request of version 0 or 1 has a byte too many. *)
Theorem C19_describe_acls_refuted : forall zip corr client b v x, (exists rt rn pt pr ho op pe, b = QDescribeAcls rt rn pt pr ho op pe) ->
  (v = 0 \/ v = 1) -> request_value b v = Some x ->
  exists out r, prepare zip corr v (new_request client b) = Ok (out, r) /\ zlen out = zlen (request_bytes b v corr client x) + 1.
Proof. exact describeacls_01. Qed.
Print Assumptions C19_describe_acls_refuted.
(** Finding: CreateAcls before version 2 has a byte too many per ACL and one at the end. *)
Theorem C19_create_acls_refuted : exists out r x, request_value (QCreateAcls [ex_acl]) 1 = Some x /\
  prepare noz 7 1 (new_request (Some [99]) (QCreateAcls [ex_acl])) = Ok (out, r) /\
  val_wf x /\ zlen out = zlen (request_bytes (QCreateAcls [ex_acl]) 1 7 (Some [99]) x) + 2.
Proof. exact createacls_1. Qed.
Print Assumptions C19_create_acls_refuted.
(** Finding: CreatePartitions at version 0 sends "no assignment given" as "empty list of
    assignments". *)
Theorem C19_create_partitions_refuted : exists out r x y,
  request_value (QCreatePartitions [([116], (3, None))] 1000 false) 0 = Some x /\
  request_value (QCreatePartitions [([116], (3, Some []))] 1000 false) 0 = Some y /\
  prepare noz 7 0 (new_request (Some [99]) (QCreatePartitions [([116], (3, None))] 1000 false)) = Ok (out, r) /\
  out <> request_bytes (QCreatePartitions [([116], (3, None))] 1000 false) 0 7 (Some [99]) x /\
  out = request_bytes (QCreatePartitions [([116], (3, None))] 1000 false) 0 7 (Some [99]) y.
Proof. exact createpartitions_0_null. Qed.
Print Assumptions C19_create_partitions_refuted.

(** *** C20 *)
(** Sent any number of times at versions of one header kind, the object encodes like a
    fresh one. *)
Theorem C20_same_kind_partial : forall zip client b v r c, 0 <= v -> resent zip (new_request client b) v r ->
  prepare zip c v r = prepare zip c v (new_request client b).
Proof. exact resend_same. Qed.
Print Assumptions C20_same_kind_partial.
Example C20_ex : resend (QListGroups (Some []) (Some [])) 5 3 =
  Some ([0; 0; 0; 13; 0; 16; 0; 3; 0; 0; 0; 8; 0; 1; 99; 0; 0], [0; 0; 0; 13; 0; 16; 0; 3; 0; 0; 0; 8; 0; 1; 99; 0; 0]).
Proof. vm_compute. reflexivity. Qed.
(** Finding: otherwise the header kind stays that of the version sent first ... *)
Theorem C20_first_kind : forall zip client b c1 v1 out1 r1 c2 v2 out2 r2, 0 <= v1 ->
  prepare zip c1 v1 (new_request client b) = Ok (out1, r1) -> prepare zip c2 v2 r1 = Ok (out2, r2) ->
  exists body, out2 = frame (header_bytes (flexibleb (kafka_key b) v1) (kafka_key b) v2 c2 client ++ body).
Proof. exact resend_header. Qed.
Print Assumptions C20_first_kind.
(** ... which the protocol forbids, e.g. listing groups at version 5, then at version 2. *)
Theorem C20_other_kind_refuted : exists b v1 v2 out1 r1 out2 r2 x, In v1 (versions b) /\ In v2 (versions b) /\
  prepare noz 7 v1 (new_request (Some [99]) b) = Ok (out1, r1) /\
  request_value b v2 = Some x /\ val_wf x /\ fits (Some [99]) b v2 /\
  prepare noz 8 v2 r1 = Ok (out2, r2) /\ out2 <> request_bytes b v2 8 (Some [99]) x.
Proof. exact resend_differs. Qed.
Print Assumptions C20_other_kind_refuted.

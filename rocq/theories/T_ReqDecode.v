(** Properties of the request decoders (C91 and C92).  [reads_back zip corr v client b decode x]:
    sending [b] at version [v] produces bytes, and [decode] reads them as [x] (as long as they
    are fewer than 2^31).  Every result has the header and its tagged fields in front. *)
From Verif Require Import Base Wire Prims Records RecordSpec RecordFacts Requests RequestSpec RequestFacts RequestFlex RequestPrep
  Responses ReqDecode ReqDecodeFacts ReqDecodeRt ReqDecodeProduce ReqDecodeRefute.

(** C91: whatever is sent, at whatever version, the header is read back and the cursor is at
    the first byte of the body. *)
Theorem C91_header : forall zip corr v client b out r', 0 <= v < 2 ^ 16 -> u32 corr -> wf_client client ->
  prepare zip corr v (new_request client b) = Ok (out, r') ->
  exists body, skipn 4 out = header_bytes (flexibleb (kafka_key b) v) (kafka_key b) v corr client ++ body /\
               decodeRequestHeader (skipn 4 out) = Ok ((sent_header client b v corr, []), body).
Proof. exact header_rt. Qed.
Print Assumptions C91_header.
(** ... also with tagged fields in it, which this client never sends *)
Theorem C91_header_tags : forall key ver corr client tags r n, In (key, n) flexible_from -> flexibleb key ver = true ->
  0 <= ver < 2 ^ 16 -> u32 corr -> wf_client client -> wf TTags tags ->
  decodeRequestHeader (enc Header2 (key, (ver, (corr, (client, tags)))) ++ r) = Ok ((mkH (Some 2) key ver corr client, tags), r).
Proof.
  intros key ver corr client tags r n Hin Hf Hv Hc Hcl Ht. apply (header_read true); try assumption; [rewrite (hv_flexible key ver n Hin (proj1 Hv)), Hf; reflexivity| |discriminate].
  unfold flexible_from in Hin. cbn [In] in Hin. unfold u16. repeat (destruct Hin as [Hin|Hin]; [injection Hin as <- <-; lia|]). contradiction.
Qed.
Print Assumptions C91_header_tags.
Example C91_ex : decodeRequestHeader [0; 45; 0; 0; 0; 0; 0; 7; 0; 1; 99; 1; 0; 2; 8; 9; 55] =
  Ok ((mkH (Some 2) 45 0 7 (Some [99]), [(0, [8; 9])]), [55]).
Proof. reflexivity. Qed.
Example C91_old_ex : decodeRequestHeader [0; 3; 0; 4; 0; 0; 0; 7; 255; 255; 55; 56] = Ok ((mkH (Some 1) 3 4 7 None, []), [55; 56]).
Proof. reflexivity. Qed.

(** C92, ListGroups: the filters of the version, also none and empty ones. *)
Theorem C92_list_groups_partial : forall zip corr client s t v, 0 <= v < 2 ^ 16 -> u32 corr -> wf_client client -> filter_ok s -> filter_ok t ->
  reads_back zip corr v client (QListGroups s t) decodeListGroups
    ((sent_header client (QListGroups s t) v corr, []), (if 4 <=? v then s else None, (if 5 <=? v then t else None, []))).
Proof. exact listgroups_rt. Qed.
Print Assumptions C92_list_groups_partial.
(** AlterPartitionReassignments: a nil list of topics, partitions or replicas is read as an empty one. *)
Theorem C92_alter_reassignments_partial : forall zip corr client timeout ts v, 0 <= v < 2 ^ 16 -> u32 corr -> wf_client client -> alter_ok timeout ts ->
  reads_back zip corr v client (QAlterPartitionReassignments timeout ts) decodeAlterReassign
    ((sent_header client (QAlterPartitionReassignments timeout ts) v corr, []), (timeout, (Some (alter_got ts), []))).
Proof. exact alterreassign_rt. Qed.
Print Assumptions C92_alter_reassignments_partial.
(** CreateAcls: the pattern type is not sent at version 0. *)
Theorem C92_create_acls_partial : forall zip corr client l v, 0 <= v <= 3 -> u32 corr -> wf_client client -> zlen l < 2 ^ 31 - 1 -> Forall acl_ok l ->
  reads_back zip corr v client (QCreateAcls l) decodeCreateAcls
    ((sent_header client (QCreateAcls l) v corr, []), (map (pt_seen v) l, [])).
Proof. exact createacls_rt. Qed.
Print Assumptions C92_create_acls_partial.
(** DescribeAcls, decoded with the version it was encoded with. *)
Theorem C92_describe_acls_partial : forall zip corr client a v, 0 <= v < 2 ^ 16 -> u32 corr -> wf_client client -> aclf_ok a ->
  reads_back zip corr v client (QDescribe a) (decodeDescribeAcls v) ((sent_header client (QDescribe a) v corr, []), ptf_seen v a).
Proof. exact describeacls_rt. Qed.
Print Assumptions C92_describe_acls_partial.
(** DeleteAcls from version 2 on *)
Theorem C92_delete_acls_partial : forall zip corr client l v, 2 <= v < 2 ^ 16 -> u32 corr -> wf_client client -> zlen l < 2 ^ 31 - 1 -> Forall aclf_ok l ->
  reads_back zip corr v client (QDeleteAcls l) decodeDeleteAcls
    ((sent_header client (QDeleteAcls l) v corr, []), Some (map (fun a => (a, [])) l)).
Proof. exact deleteacls_rt. Qed.
Print Assumptions C92_delete_acls_partial.
(** IncrementalAlterConfigs *)
Theorem C92_incremental_partial : forall zip corr client rs bb v, 0 <= v < 2 ^ 16 -> u32 corr -> wf_client client -> zlen rs < 2 ^ 31 -> Forall ires_of rs ->
  reads_back zip corr v client (QIncrementalAlterConfigs rs bb) decodeIncremental
    ((sent_header client (QIncrementalAlterConfigs rs bb) v corr, []), (rs, bb)).
Proof. exact incremental_rt. Qed.
Print Assumptions C92_incremental_partial.
(** Metadata of a list of topics *)
Theorem C92_metadata_partial : forall zip corr client ts bb v, 0 <= v < 2 ^ 16 -> u32 corr -> wf_client client ->
  zlen ts < 2 ^ 31 - 1 -> Forall (fun t => zlen t < 2 ^ 15) ts ->
  reads_back zip corr v client (QMetadata (Some ts) bb) decodeMetadata
    ((sent_header client (QMetadata (Some ts) bb) v corr, []), (ts, if 4 <=? v then bb else false)).
Proof. exact metadata_rt. Qed.
Print Assumptions C92_metadata_partial.
(** Produce, batches not compressed: every record with its key, value, headers, timestamp
    and offset, the batch fields, the batch length and the checksum ([got_topic]). *)
Theorem C92_produce_partial : forall zip corr client txn acks timeout ts v, 0 <= v < 2 ^ 16 -> u32 corr -> wf_client client ->
  wf TNStr txn -> i16 acks -> i32 timeout -> zlen ts < 2 ^ 31 - 1 -> Forall ptopic_ok ts ->
  reads_back zip corr v client (QProduce txn acks timeout ts) decodeProduce
    ((sent_header client (QProduce txn acks timeout ts) v corr, []), (txn, (acks, (timeout, (map got_topic ts, []))))).
Proof. exact produce_rt. Qed.
Print Assumptions C92_produce_partial.

(** the hypotheses hold of ordinary requests *)
Example C92_create_acls_ex : Forall acl_ok [(2, ([116], (3, ([85; 58; 97], ([42], (3, 3))))))].
Proof. repeat constructor; cbn; unfold i8; try lia. Qed.
Example C92_read_ex : forall zip, exists out r,
  prepare zip 7 1 (new_request (Some [99]) (QCreateAcls [(2, ([116], (3, ([85; 58; 97], ([42], (3, 3))))))])) = Ok (out, r) /\
  decodeCreateAcls out = Ok ((mkH (Some 1) 30 1 7 (Some [99]), []), ([((2, ([116], (3, ([85; 58; 97], ([42], (3, 3)))))), [])], [])).
Proof. intros zip. eexists. eexists. split; [vm_compute; reflexivity|vm_compute; reflexivity]. Qed.
Definition a_record : Record := mkRec 0 3 1 (Some [1]) (Some [2; 3]) [([104], [105])].
Definition a_batch : RecordBatch := mkRB 0 (-1) 2 0 1 5 9 (-1) 0 0 [new_record (Some [9]) [1; 2]; a_record].
Example C92_produce_ex : forall zip, exists out r, prepare zip 7 9 (new_request None (QProduce None (-1) 1000 [([116], [(0, [a_batch; a_batch])])])) = Ok (out, r) /\
  exists n c, decodeProduce out = Ok ((mkH (Some 2) 0 9 7 None, []), (None, (-1, (1000, ([([116], ([(0, (n, ([c; c], [])))], []))], []))))) /\ snd (snd c) = a_batch.
Proof. intros zip. eexists. eexists. split; [vm_compute; reflexivity|]. eexists. eexists. split; [vm_compute; reflexivity|reflexivity]. Qed.
Example C92_list_groups_ex : filter_ok (Some [[83; 116]; []]) /\ filter_ok None.
Proof. repeat split; try (cbn; lia). repeat constructor; cbn; lia. Qed.

(** C92 is false for DeleteAcls at versions 0 and 1: the decoder looks for tagged fields after
    every filter, which are not sent at these versions (and not part of them); with two filters
    it panics. *)
Theorem C92_delete_acls_refuted : exists l, forall zip v, v = 0 \/ v = 1 ->
  exists out r, prepare zip 1 v (new_request (Some [99]) (QDeleteAcls l)) = Ok (out, r) /\ decodeDeleteAcls out = Panic.
Proof. exists two_filters. intros zip v Hv. exact (deleteacls_lost v Hv zip). Qed.
Print Assumptions C92_delete_acls_refuted.
(** ... for Metadata of all topics, at every version: the count -1 is read as 2^32-1. *)
Theorem C92_metadata_all_refuted : forall zip corr client bb v, 0 <= v < 2 ^ 16 -> u32 corr -> wf_client client ->
  exists out r, prepare zip corr v (new_request client (QMetadata None bb)) = Ok (out, r) /\ decodeMetadata out = Panic.
Proof. exact metadata_nil. Qed.
Print Assumptions C92_metadata_all_refuted.
(** ... and for compressed batches, which are read as if they were not compressed: whatever
    record was sent, and whatever the compressor made of it, the decoder reports the same
    record made of the first bytes of the gzip stream, without an error. *)
Theorem C92_compressed_refuted : forall zip r t, zip 1 (record_encode r) = Ok (gzip_start ++ t) -> zlen t < 2 ^ 30 ->
  exists out len crc, batch_encode zip (gz_batch r) = Ok out /\
  decodeToRecordBatch out = Ok (((len, (crc, gz_batch (mkRec (-117) 4 0 None None []))), true), t).
Proof. exact gz_read. Qed.
Print Assumptions C92_compressed_refuted.

(** C05-C08: records and record batches. *)
From Verif Require Import Base BaseFacts RecordSpec Records RecordFacts Fetch FetchSpec FetchFacts DeliverFacts RecordRefute.

(** Vocabulary: [enc_presp v p] is a version-v fetch response for one partition with
    record-set [pr_records p]; [streamDecode ... (mkStream chunks fin)] is what the
    consumer receives when the bytes arrive in the reads [chunks];
    [fields_ok chunks ...] says that no fixed-size field of the partition header is
    split between two reads; [nz] maps an empty byte string to an absent one;
    [broker_assign] overwrites base offset and leader epoch of a batch as brokers do. *)

(** *** C05 *)
(** Every batch the producer makes of messages (key, value) reaches the consumer: same
    keys and values, same order, for every compression codec whose decompressor undoes
    its compressor. *)
Theorem C05_produced_delivered_partial : forall unzip zip codec ts off epoch kvs out v p start chunks rest fin,
  (v = 0 \/ v = 7 \/ v = 10) -> 0 <= codec <= 3 ->
  (forall b c, codec <> 0 -> zip codec b = Ok c -> unzip codec c = Ok b) ->
  i64 off -> i32 epoch -> 0 <= ts < 2 ^ 63 -> kvs <> [] -> Forall kv_ok kvs -> zlen kvs < 2 ^ 31 ->
  batch_encode zip (createRecordBatch 2 codec ts (map produced kvs)) = Ok out -> zlen out < 2 ^ 31 ->
  wf_presp p -> pr_records p = broker_assign off epoch out -> start <= off ->
  concat chunks = enc_presp v p ++ rest ->
  fields_ok chunks (length (enc_presp_head v p)) (part_fields v p) ->
  exists s', streamDecode unzip zip v start (zlen (enc_presp v p)) (mkStream chunks fin) =
    Ok (map (fun kv => EvMsg (pr_topic p) (pr_pid p)
              (mkMsg off 2 0 ts (nz (fst kv)) (nz (Some (snd kv))) [])) kvs, s') /\
    concat (st_chunks (d_in s')) = rest.
Proof. exact produced_delivered. Qed.
Print Assumptions C05_produced_delivered_partial.

(** The same for arbitrary batches: headers, timestamp deltas and attributes too. *)
Theorem C05_records_delivered_partial : forall unzip zip b out v p start chunks rest fin,
  (v = 0 \/ v = 7 \/ v = 10) ->
  Z.land (rb_attr b) 7 <= 3 -> (forall x c, Z.land (rb_attr b) 7 <> 0 -> zip (Z.land (rb_attr b) 7) x = Ok c -> unzip (Z.land (rb_attr b) 7) c = Ok x) ->
  rb_magic b = 2 -> wf_sbatch (sb_of b) -> rb_records b <> [] -> zlen (rb_records b) < 2 ^ 31 ->
  Forall (fun r => key_ok r /\ wf_record r /\ i64 (rb_base b + r_od r) /\ start <= rb_base b + r_od r) (rb_records b) ->
  batch_encode zip b = Ok out -> zlen out < 2 ^ 31 ->
  wf_presp p -> pr_records p = out ->
  concat chunks = enc_presp v p ++ rest ->
  fields_ok chunks (length (enc_presp_head v p)) (part_fields v p) ->
  exists s', streamDecode unzip zip v start (zlen (enc_presp v p)) (mkStream chunks fin) =
    Ok (map (fun r => EvMsg (pr_topic p) (pr_pid p)
              (mkMsg (rb_base b + r_od r) 2 (r_attr r) ((r_ts r + rb_bts b) mod 2 ^ 64)
                     (nz (r_key r)) (nz (r_value r)) (r_headers r))) (rb_records b), s') /\
    concat (st_chunks (d_in s')) = rest.
Proof. exact records_delivered. Qed.
Print Assumptions C05_records_delivered_partial.

Definition nozip (c : Z) (b : bytes) : res bytes := Err (EInvalid 0).
Definition ex_kvs : list (option bytes * bytes) := [(Some [107], [118; 119]); (None, [120])].
Definition ex_batch : RecordBatch :=
  mkRB 7 0 2 0 1 1000 1000 (-1) 0 0
    [mkRec 0 5 0 (Some [107]) (Some [118]) [([104], [1; 2])]; mkRec 0 6 1 None (Some [120]) []].
Definition ex_presp (records : bytes) : presp := mkPR 1 0 0 [116] 3 100 100 0 (Some [(1, 2)]) records.
Example C05_ex : exists out,
  batch_encode nozip (createRecordBatch 2 0 1000 (map produced ex_kvs)) = Ok out /\
  exists s', streamDecode nozip nozip 10 5 (zlen (enc_presp 10 (ex_presp (broker_assign 7 0 out))))
               (mkStream [enc_presp 10 (ex_presp (broker_assign 7 0 out)) ++ [9; 9]] ETimeout) =
    Ok ([EvMsg [116] 3 (mkMsg 7 2 0 1000 (Some [107]) (Some [118; 119]) []);
         EvMsg [116] 3 (mkMsg 7 2 0 1000 None (Some [120]) [])], s') /\
    concat (st_chunks (d_in s')) = [9; 9].
Proof. eexists; split; [vm_compute; reflexivity|]. eexists; split; vm_compute; reflexivity. Qed.
Example C05_ex_headers : exists out,
  batch_encode nozip ex_batch = Ok out /\
  exists s', streamDecode nozip nozip 7 0 (zlen (enc_presp 7 (ex_presp out))) (mkStream [enc_presp 7 (ex_presp out)] EEOF) =
    Ok ([EvMsg [116] 3 (mkMsg 7 2 0 1005 (Some [107]) (Some [118]) [([104], [1; 2])]);
         EvMsg [116] 3 (mkMsg 8 2 0 1006 None (Some [120]) [])], s').
Proof. eexists; split; [vm_compute; reflexivity|]. eexists; vm_compute; reflexivity. Qed.

(** Finding: an absent value is sent like an empty one, so the producer cannot send a
    tombstone, whatever the record. *)
Theorem C05_absent_value_sent_as_empty_refuted :
  exists r, r_value r = None /\ record_encode r <> enc_srecord
     (mkSRec (r_attr r) (r_ts r) (r_od r) (r_key r) (r_value r) (map (fun h => (fst h, Some (snd h))) (r_headers r))) /\
   record_encode r = record_encode (mkRec (r_attr r) (r_ts r) (r_od r) (r_key r) (Some []) (r_headers r)).
Proof. exists (mkRec 0 0 0 (Some [107]) None []). split; [reflexivity|]. split; [vm_compute; congruence|reflexivity]. Qed.
Print Assumptions C05_absent_value_sent_as_empty_refuted.

(** Finding: the consumer hands out the same message for an absent and for an empty key
    (or value), although the wire bytes differ. *)
Theorem C05_absent_vs_empty_refuted :
  exists s1 s2, enc_srecord s1 <> enc_srecord s2 /\ sr_key s1 = None /\ sr_key s2 = Some [] /\
    sr_value s1 = None /\ sr_value s2 = Some [] /\
    forall rest, decodeToRecord (enc_srecord s1 ++ rest) = Ok (mkRec 0 0 0 None None [], rest) /\
                 decodeToRecord (enc_srecord s2 ++ rest) = Ok (mkRec 0 0 0 None None [], rest).
Proof. exact absent_vs_empty. Qed.
Print Assumptions C05_absent_vs_empty_refuted.

(** *** C06 *)
(** Byte positions as in the format: 8 base offset, 12 length, ... 21 end of checksum,
    57 record count, 61 records. *)
Theorem C06_batch_layout : forall zip b out,
  batch_encode zip b = Ok out -> zlen out < 2 ^ 32 -> zlen (rb_records b) < 2 ^ 31 ->
  unbe (firstn 4 (skipn 8 out)) = zlen out - 12 /\
  firstn 4 (skipn 17 out) = be 4 (crc32c (skipn 21 out)) /\
  unbe (firstn 4 (skipn 57 out)) = zlen (rb_records b) /\
  batch_payload zip (rb_attr b) (rb_records b) = Ok (skipn 61 out).
Proof. exact batch_layout. Qed.
Print Assumptions C06_batch_layout.

Theorem C06_last_offset_delta : forall zip magic codec ts rs out,
  batch_encode zip (createRecordBatch magic codec ts rs) = Ok out -> 1 <= zlen rs < 2 ^ 31 ->
  unbe (firstn 4 (skipn 23 out)) = zlen rs - 1.
Proof. exact batch_lod. Qed.
Print Assumptions C06_last_offset_delta.

(** The whole batch is the protocol's serialisation of its fields. *)
Theorem C06_batch_format : forall zip b payload, rb_magic b = 2 -> zlen (rb_records b) < 2 ^ 31 ->
  batch_payload zip (rb_attr b) (rb_records b) = Ok payload -> 49 + zlen payload < 2 ^ 32 ->
  batch_encode zip b = Ok (enc_sbatch (sb_of b) (zlen (rb_records b)) payload).
Proof. exact batch_encode_spec. Qed.
Print Assumptions C06_batch_format.

Example C06_ex : exists out,
  batch_encode nozip (createRecordBatch 2 0 1000 (map produced ex_kvs)) = Ok out /\ zlen out = 79 /\
  firstn 4 (skipn 8 out) = [0; 0; 0; 67] /\ firstn 4 (skipn 23 out) = [0; 0; 0; 1] /\ firstn 4 (skipn 57 out) = [0; 0; 0; 2].
Proof. eexists; split; [vm_compute; reflexivity|]. repeat split; vm_compute; reflexivity. Qed.
(** the checksum is the real CRC-32C: check value of "123456789" *)
Example C06_crc_check : crc32c [49; 50; 51; 52; 53; 54; 55; 56; 57] = 3808858755.
Proof. vm_compute; reflexivity. Qed.

(** Finding: an error of the compressor is a panic. *)
Theorem C06_compressor_error_panics_refuted : forall zip b, Z.land (rb_attr b) 3 <> 0 ->
  (forall c x, exists e, zip c x = Err e) -> batch_encode zip b = Panic.
Proof. exact compressor_error. Qed.
Print Assumptions C06_compressor_error_panics_refuted.

(** *** C07 *)
(** Finding: all records of a produced batch carry offset delta 0 and are delivered with
    the same offset. *)
Theorem C07_offset_deltas_refuted : exists kvs out r1 r2,
  zlen kvs = 2 /\ batch_encode nozip (createRecordBatch 2 0 1000 (map produced kvs)) = Ok out /\
  skipn 61 out = enc_srecord r1 ++ enc_srecord r2 /\ wf_srecord r1 /\ wf_srecord r2 /\
  sr_od r1 = 0 /\ sr_od r2 = 0.
Proof. exact offset_deltas. Qed.
Print Assumptions C07_offset_deltas_refuted.

Theorem C07_same_offset_refuted : forall unzip zip codec ts off epoch kvs out v p start chunks rest fin,
  (v = 0 \/ v = 7 \/ v = 10) -> 0 <= codec <= 3 ->
  (forall b c, codec <> 0 -> zip codec b = Ok c -> unzip codec c = Ok b) ->
  i64 off -> i32 epoch -> 0 <= ts < 2 ^ 63 -> kvs <> [] -> Forall kv_ok kvs -> zlen kvs < 2 ^ 31 ->
  batch_encode zip (createRecordBatch 2 codec ts (map produced kvs)) = Ok out -> zlen out < 2 ^ 31 ->
  wf_presp p -> pr_records p = broker_assign off epoch out -> start <= off ->
  concat chunks = enc_presp v p ++ rest ->
  fields_ok chunks (length (enc_presp_head v p)) (part_fields v p) ->
  exists evs s', streamDecode unzip zip v start (zlen (enc_presp v p)) (mkStream chunks fin) = Ok (evs, s') /\
    length evs = length kvs /\ forall e, In e evs -> exists t pid m, e = EvMsg t pid m /\ m_offset m = off.
Proof. exact same_offset. Qed.
Print Assumptions C07_same_offset_refuted.

(** What does hold: a batch of one record. *)
Theorem C07_single_record_partial : forall unzip zip codec ts off epoch kv out v p start chunks rest fin,
  (v = 0 \/ v = 7 \/ v = 10) -> 0 <= codec <= 3 ->
  (forall b c, codec <> 0 -> zip codec b = Ok c -> unzip codec c = Ok b) ->
  i64 off -> i32 epoch -> 0 <= ts < 2 ^ 63 -> kv_ok kv ->
  batch_encode zip (createRecordBatch 2 codec ts (map produced [kv])) = Ok out -> zlen out < 2 ^ 31 ->
  wf_presp p -> pr_records p = broker_assign off epoch out -> start <= off ->
  concat chunks = enc_presp v p ++ rest ->
  fields_ok chunks (length (enc_presp_head v p)) (part_fields v p) ->
  exists s', streamDecode unzip zip v start (zlen (enc_presp v p)) (mkStream chunks fin) =
    Ok ([EvMsg (pr_topic p) (pr_pid p) (mkMsg (off + 0) 2 0 ts (nz (fst kv)) (nz (Some (snd kv))) [])], s').
Proof. exact single_record. Qed.
Print Assumptions C07_single_record_partial.
Example C07_ex : exists out,
  batch_encode nozip (createRecordBatch 2 0 1000 (map produced [(None, [120])])) = Ok out /\
  exists s', streamDecode nozip nozip 10 5 (zlen (enc_presp 10 (ex_presp (broker_assign 7 0 out))))
               (mkStream [enc_presp 10 (ex_presp (broker_assign 7 0 out))] ETimeout) =
    Ok ([EvMsg [116] 3 (mkMsg (7 + 0) 2 0 1000 None (Some [120]) [])], s').
Proof. eexists; split; [vm_compute; reflexivity|]. eexists; vm_compute; reflexivity. Qed.

(** *** C08 *)
(** With a key, or with an offset delta of one byte, the bytes are those of the format
    and decode to the record. *)
Theorem C08_record_format_partial : forall r, r_key r <> None \/ -64 <= r_od r < 64 ->
  record_encode r = enc_srecord (mkSRec (r_attr r) (r_ts r) (r_od r) (r_key r) (Some (obytes (r_value r)))
                                        (map (fun h => (fst h, Some (snd h))) (r_headers r))).
Proof. exact record_encode_spec. Qed.
Print Assumptions C08_record_format_partial.

Theorem C08_record_roundtrip_partial : forall r rest, r_key r <> None \/ -64 <= r_od r < 64 -> wf_record r ->
  decodeToRecord (record_encode r ++ rest) =
    Ok (mkRec (r_attr r) (r_ts r) (r_od r) (nz (r_key r)) (nz (r_value r)) (r_headers r), rest).
Proof. exact record_roundtrip. Qed.
Print Assumptions C08_record_roundtrip_partial.

Example C08_ex : decodeToRecord (record_encode (mkRec 1 (-5) 300 (Some [107]) (Some [118]) [([104], [1])]) ++ [77]) =
  Ok (mkRec 1 (-5) 300 (Some [107]) (Some [118]) [([104], [1])], [77]).
Proof. vm_compute; reflexivity. Qed.

(** Finding: without a key and with an offset delta of two or more bytes, the bytes are
    not those of the format, for every record. *)
Theorem C08_absent_key_refuted : forall r, r_key r = None -> i32 (r_od r) -> (r_od r < -64 \/ 64 <= r_od r) ->
  record_encode r <> enc_srecord (mkSRec (r_attr r) (r_ts r) (r_od r) (r_key r) (Some (obytes (r_value r)))
                                        (map (fun h => (fst h, Some (snd h))) (r_headers r))).
Proof. exact absent_key. Qed.
Print Assumptions C08_absent_key_refuted.
(** ... and decoding them does not give the record back, or crashes. *)
Theorem C08_absent_key_decode_refuted : exists r, r_key r = None /\ r_od r = 200 /\ wf_record r /\
  decodeToRecord (record_encode r) = Panic.
Proof. exact absent_key_panic. Qed.
Print Assumptions C08_absent_key_decode_refuted.

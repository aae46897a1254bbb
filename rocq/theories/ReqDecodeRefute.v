(** Requests the package's own decoders do not read back. *)
From Verif Require Import Base BaseFacts Wire WireFacts Prims PrimsFacts Group Records RecordSpec RecordFacts Requests RequestSpec RequestFacts RequestBodies RequestFlex RequestPrep
  Responses ResponseSpec ResponseFacts ResponseDecode ReqDecode ReqDecodeFacts ReqDecodeRt.
Local Open Scope ty_scope.

(** ** DeleteAcls below version 2 *)
Definition two_filters : list aclf :=
  [(2, (Some [97], (3, (None, (None, (2, 3)))))); (2, (Some [98], (3, (None, (None, (2, 3))))))].
Lemma deleteacls_lost v : v = 0 \/ v = 1 -> forall zip,
  exists out r, prepare zip 1 v (new_request (Some [99]) (QDeleteAcls two_filters)) = Ok (out, r) /\ decodeDeleteAcls out = Panic.
Proof. intros [->| ->] zip; eexists; eexists; (split; [vm_compute; reflexivity|vm_compute; reflexivity]). Qed.

(** ** Metadata of all topics *)
Lemma make_panics {A} n (p : parser A) s : 0 < n -> p s = Panic -> rd_make n p s = Panic.
Proof.
  intros Hn E. unfold rd_make. destruct (Z.ltb_spec n 0); [reflexivity|]. destruct (Z.to_nat n) as [|k] eqn:K; [lia|]. cbn [rd_n]. unfold bind. rewrite E. reflexivity.
Qed.
Lemma metadata_nil zip corr client bb v : 0 <= v < 2 ^ 16 -> u32 corr -> wf_client client ->
  exists out r, prepare zip corr v (new_request client (QMetadata None bb)) = Ok (out, r) /\ decodeMetadata out = Panic.
Proof.
  intros Hv Hc Hcl. set (b := QMetadata None bb). pose proof (sent_hdr_ok b v corr client Hv Hc Hcl) as Hh.
  eexists. eexists. split.
  - apply (prepared zip corr client b v (enc (TNArr TStr) None ++ (if 4 <=? v then enc TBool bb else []))); [lia|]. cbn [encode_body b].
    change (api_key (QMetadata None bb)) with 3. change (api_key b) with 3. destruct (4 <=? v) eqn:E4.
    + apply (enc_metadata_4 (flex_of b v) (mkH None 3 v corr client) v None bb). lia.
    + rewrite app_nil_r. etransitivity; [|exact (enc_metadata_1 (flex_of b v) (mkH None 3 v corr client) None bb)]. unfold enc_metadata. rewrite E4. reflexivity.
  - unfold decodeMetadata, any_length, sent, frame.
    match goal with |- context [be 4 (zlen ?x) ++ _] => set (body := x) end.
    unfold rd_u32. rewrite (rd_u_be 4). unfold body. rewrite hdr_step by exact Hh. cbv beta iota. change (enc (TNArr TStr) None) with (be 4 (-1)).
    unfold rd_arr, bind. unfold rd_u32. rewrite (rd_u_be 4). rewrite make_panics; [reflexivity|reflexivity|]. destruct (4 <=? v); reflexivity.
Qed.

(** ** Compressed batches *)
(** the first bytes of a gzip stream without a modification time, as compress/gzip writes it *)
Definition gzip_start : bytes := [31; 139; 8; 0; 0; 0; 0].
Lemma junk_record t : decodeToRecord (gzip_start ++ t) = Ok (mkRec (-117) 4 0 None None [], t).
Proof.
  unfold decodeToRecord. change (get_uvarint (gzip_start ++ t)) with (Some (31, 1%nat)). cbv iota beta zeta.
  change (skipn 1 (gzip_start ++ t)) with (139 :: 8 :: 0 :: 0 :: 0 :: 0 :: t). change (unzigzag 31) with (-16).
  pose proof (zlen_nonneg (139 :: 8 :: 0 :: 0 :: 0 :: 0 :: t)). replace (zlen _ <? -16) with false by lia. reflexivity.
Qed.
(** a batch of one record, to be compressed with gzip *)
Definition gz_batch (r : Record) : RecordBatch := mkRB 0 (-1) 2 1 0 5 5 (-1) 0 0 [r].
Lemma gz_read zip r t : zip 1 (record_encode r) = Ok (gzip_start ++ t) -> zlen t < 2 ^ 30 ->
  exists out len crc, batch_encode zip (gz_batch r) = Ok out /\
  decodeToRecordBatch out = Ok (((len, (crc, gz_batch (mkRec (-117) 4 0 None None []))), true), t).
Proof.
  intros Hz Ht. eexists. eexists. eexists. split.
  - unfold batch_encode, batch_payload. cbn [gz_batch rb_records rb_attr flat_map]. rewrite app_nil_r. change (Z.land 1 3 =? 0) with false. change (Z.land 1 3) with 1. cbv iota.
    rewrite Hz. cbn [rbind]. reflexivity.
  - set (tail := batch_tail (gz_batch r) (gzip_start ++ t)). unfold decodeToRecordBatch.
    assert (L : zlen tail = 40 + 7 + zlen t) by (unfold tail, batch_tail; rewrite !zlen_app, !zlen_be; change (zlen gzip_start) with 7; lia).
    pose proof (zlen_nonneg t). rewrite be4_uint. cbn [gz_batch rb_base rb_epoch rb_magic].
    erewrite bind_ok by (apply rd_i64_be; unfold i64; lia). erewrite bind_ok by (apply rd_i32_be; unfold i32; lia). erewrite bind_ok by (apply rd_i32_be; unfold i32; lia).
    erewrite bind_ok by (apply rd_i8_be; unfold i8; lia). set (crc := crc32c tail). erewrite bind_ok by (exact (rd_u_be 4 crc _)). unfold tail, batch_tail.
    cbn [gz_batch rb_attr rb_lod rb_bts rb_mts rb_pid rb_pepoch rb_seq rb_records].
    erewrite bind_ok by (apply rd_i16_be; unfold i16; lia).
    erewrite bind_ok by (apply rd_i32_be; unfold i32; lia). erewrite bind_ok by (apply rd_i64_be; unfold i64; lia). erewrite bind_ok by (apply rd_i64_be; unfold i64; lia).
    erewrite bind_ok by (apply rd_i64_be; unfold i64; lia). erewrite bind_ok by (apply rd_i16_be; unfold i16; lia). erewrite bind_ok by (apply rd_i32_be; unfold i32; lia).
    change (sint 32 (zlen [r])) with 1. erewrite bind_ok by (apply rd_u32_be; unfold u32; lia). change (Z.to_nat 1) with 1%nat. cbn [rd_records]. rewrite junk_record. reflexivity.
Qed.

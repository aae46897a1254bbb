(** C09-C12 (fetch part), and the fetch part of C24 and C25: decoding fetch responses. *)
From Verif Require Import Base BaseFacts RecordSpec Records RecordFacts Fetch FetchSpec FetchFacts FetchKeep FetchOld DeliverFacts FetchGrow FetchRefute.

(** Vocabulary: see FetchSpec.v.  A record set [rs] is a list of whole batches, then
    possibly the first k bytes of one more (uncompressed) batch; [exp_presp st p rs] are
    the records of the whole batches and the whole records of the cut batch whose offset
    is at least [st], in order, or the error 'fetch size too small' if there is none. *)

(** *** C09 *)
Theorem C09_fetch_decode_partial : forall unzip zip v st p rs rest chunks fin,
  (v = 0 \/ v = 7 \/ v = 10) -> wf_presp p -> wf_rset unzip rs -> pr_records p = enc_rset rs ->
  concat chunks = enc_presp v p ++ rest ->
  fields_ok chunks (length (enc_presp_head v p)) (part_fields v p) ->
  exists s', streamDecode unzip zip v st (zlen (enc_presp v p)) (mkStream chunks fin) = Ok (exp_presp st p rs, s') /\
    concat (st_chunks (d_in s')) = rest.
Proof. exact stream_decode_at. Qed.
Print Assumptions C09_fetch_decode_partial.

(** In particular whenever the first read contains everything up to the record set,
    however the rest is cut into reads. *)
Theorem C09_fetch_first_read_partial : forall unzip zip v st p rs rest c cs fin,
  (v = 0 \/ v = 7 \/ v = 10) -> wf_presp p -> wf_rset unzip rs -> pr_records p = enc_rset rs ->
  concat (c :: cs) = enc_presp v p ++ rest ->
  zlen (enc_presp v p) - zlen (pr_records p) <= zlen c ->
  exists s', streamDecode unzip zip v st (zlen (enc_presp v p)) (mkStream (c :: cs) fin) = Ok (exp_presp st p rs, s') /\
    concat (st_chunks (d_in s')) = rest.
Proof. exact stream_first_read. Qed.
Print Assumptions C09_fetch_first_read_partial.

(** two batches, the second cut within its second record, read from offset 8 *)
Definition b1 : wbatch := mkWB (hdr 7 0 2) [rec 0 [107] [118]; rec 1 [108] [119]] (flat_map enc_srecord [rec 0 [107] [118]; rec 1 [108] [119]]).
Definition b2 : wbatch := mkWB (hdr 9 0 2) [rec 0 [109] [120]; rec 1 [110] [121]] (flat_map enc_srecord [rec 0 [109] [120]; rec 1 [110] [121]]).
Definition ex_rs : rset := mkRS [b1] (Some (b2, 73%nat)).
Example C09_ex_wf : wf_presp (resp (enc_rset ex_rs)) /\ wf_rset err0 ex_rs.
Proof. split; [wf|]. split; [repeat constructor; wf|]. split; [wf|]. split; [discriminate|]. split; [reflexivity|vm_compute; lia]. Qed.
Example C09_ex : let p := resp (enc_rset ex_rs) in
  exp_presp 8 p ex_rs = [EvMsg [116] 3 (mkMsg 8 2 0 1000 (Some [108]) (Some [119]) []);
                         EvMsg [116] 3 (mkMsg 9 2 0 1000 (Some [109]) (Some [120]) [])] /\
  exists s', streamDecode err0 err0 10 8 (zlen (enc_presp 10 p))
    (mkStream [firstn 100 (enc_presp 10 p); skipn 100 (enc_presp 10 p) ++ [1; 2; 3]] ETimeout) = Ok (exp_presp 8 p ex_rs, s') /\
    concat (st_chunks (d_in s')) = [1; 2; 3].
Proof. cbv zeta. split; [vm_compute; reflexivity|]. eexists; split; vm_compute; reflexivity. Qed.

(** Findings: the bytes of a zstd-compressed batch are taken for records, whatever the
    available decompressors; transaction markers (control batches) are delivered as
    messages. *)
Theorem C09_zstd_refuted : exists payload, forall unzip zip, exists s',
  let p := resp (enc_sbatch (hdr 7 4 1) 1 payload) in
  streamDecode unzip zip 10 0 (zlen (enc_presp 10 p)) (mkStream [enc_presp 10 p] ETimeout) =
  Ok ([EvMsg [116] 3 (mkMsg 7 2 0 1000 None (Some [181; 47; 253]) [])], s').
Proof. exact zstd_as_plain. Qed.
Print Assumptions C09_zstd_refuted.
Theorem C09_control_batch_refuted :
  exists w, Z.testbit (sb_attr (wb_h w)) 5 = true /\ wf_wb err0 w /\ exists m s',
  let p := resp (enc_wb w) in
  streamDecode err0 err0 10 0 (zlen (enc_presp 10 p)) (mkStream [enc_presp 10 p] ETimeout) = Ok ([EvMsg [116] 3 m], s').
Proof. exact control_delivered. Qed.
Print Assumptions C09_control_batch_refuted.

(** *** C10 *)
(** Guard: the cut leaves at least six bytes of a later message missing (any cut of the
    first message is allowed), and every message body arrives in one read. *)
Theorem C10_old_messages_partial : forall unzip zip v st p ms cut rest chunks fin,
  (v = 0 \/ v = 7 \/ v = 10) -> wf_presp p -> wf_old ms cut -> pr_records p = enc_old ms cut -> enc_old ms cut <> [] ->
  concat chunks = enc_presp v p ++ rest ->
  fields_ok chunks (length (enc_presp_head v p)) (part_fields v p ++ old_fields ms cut) ->
  exists e s', streamDecode unzip zip v st (zlen (enc_presp v p)) (mkStream chunks fin) =
      Ok (if nonempty (exp_old (pr_topic p) (pr_pid p) st ms) then exp_old (pr_topic p) (pr_pid p) st ms
          else [EvErr e], s') /\
    (e = EMaxBytesTooSmall \/ (e = EUnexpectedEOF /\ ms <> [])) /\
    concat (st_chunks (d_in s')) = rest.
Proof. exact stream_old. Qed.
Print Assumptions C10_old_messages_partial.
Theorem C10_old_messages_one_read_partial : forall unzip zip v st p ms cut rest cs fin,
  (v = 0 \/ v = 7 \/ v = 10) -> wf_presp p -> wf_old ms cut -> pr_records p = enc_old ms cut -> enc_old ms cut <> [] ->
  concat (enc_presp v p :: cs) = enc_presp v p ++ rest ->
  exists e s', streamDecode unzip zip v st (zlen (enc_presp v p)) (mkStream (enc_presp v p :: cs) fin) =
        Ok (if nonempty (exp_old (pr_topic p) (pr_pid p) st ms) then exp_old (pr_topic p) (pr_pid p) st ms
            else [EvErr e], s') /\
      (e = EMaxBytesTooSmall \/ (e = EUnexpectedEOF /\ ms <> [])) /\
      concat (st_chunks (d_in s')) = rest.
Proof. exact old_one_read. Qed.
Print Assumptions C10_old_messages_one_read_partial.
Example C10_ex : let ms := [old_msg 7 [65]; mkSM 8 0 0 0 (Some [107]) None] in let cut := Some (old_msg 9 [1; 2; 3; 4; 5; 6; 7], 30%nat) in
  wf_old ms cut /\ let p := resp (enc_old ms cut) in
  exists s', streamDecode err0 err0 10 0 (zlen (enc_presp 10 p)) (mkStream [enc_presp 10 p] ETimeout) =
    Ok ([EvMsg [116] 3 (mkMsg 7 1 0 5 None (Some [65]) []); EvMsg [116] 3 (mkMsg 8 0 0 0 (Some [107]) None [])], s').
Proof.
  cbv zeta. split.
  - split; [apply Forall_cons; [wf|apply Forall_cons; [wf|apply Forall_nil]]|]. split; [wf|vm_compute; lia].
  - eexists; vm_compute; reflexivity.
Qed.

(** Findings: a later message that misses up to five bytes is delivered with zeros in
    their place; a message body split between two network reads is lost. *)
Theorem C10_cut_message_refuted : exists m1 m2 k, wf_smsg m1 /\ wf_smsg m2 /\ (k < length (enc_smsg m2))%nat /\
  sm_value m2 = Some [65; 66; 67] /\
  exists s', let p := resp (enc_smsg m1 ++ firstn k (enc_smsg m2)) in
  streamDecode err0 err0 10 0 (zlen (enc_presp 10 p)) (mkStream [enc_presp 10 p] ETimeout) =
  Ok ([EvMsg [116] 3 (exp_smsg m1); EvMsg [116] 3 (mkMsg (sm_offset m2) 1 0 5 None (Some [65; 66; 0]) [])], s').
Proof. exact old_cut_corrupt. Qed.
Print Assumptions C10_cut_message_refuted.
Theorem C10_split_body_refuted : exists m a b, wf_smsg m /\
  let p := resp (enc_smsg m) in enc_presp 10 p = a ++ b /\
  (exists s', streamDecode err0 err0 10 0 (zlen (enc_presp 10 p)) (mkStream [a ++ b] ETimeout) = Ok ([EvMsg [116] 3 (exp_smsg m)], s')) /\
  exists s', streamDecode err0 err0 10 0 (zlen (enc_presp 10 p)) (mkStream [a; b] ETimeout) = Ok ([EvErr EMaxBytesTooSmall], s').
Proof. exact old_split_lost. Qed.
Print Assumptions C10_split_body_refuted.

(** *** C11 *)
(** The broker returns the first [max] bytes of a log of uncompressed batches; the first
    record of the log is wanted and, with its batch header, not larger than 1 GiB.  Then
    after finitely many reports 'too small', each doubling the size, the record is
    delivered. *)
Theorem C11_growth_delivers_partial : forall unzip zip v st p w ws r rs max,
  (v = 0 \/ v = 7 \/ v = 10) -> wf_resp p -> Forall (plain unzip) (w :: ws) ->
  wb_recs w = r :: rs -> st <= sb_base (wb_h w) + sr_od r -> 0 < max < 2 ^ 31 -> 61 + zlen (enc_srecord r) <= 2 ^ 30 ->
  exists n evs s',
    (forall k, (k < n)%nat -> exists s,
       fetch_round unzip zip v st p (flat_map enc_wb (w :: ws)) (fetch_max unzip zip k v st p (flat_map enc_wb (w :: ws)) max)
         = Ok ([EvErr EMaxBytesTooSmall], s)) /\
    fetch_round unzip zip v st p (flat_map enc_wb (w :: ws)) (fetch_max unzip zip n v st p (flat_map enc_wb (w :: ws)) max)
      = Ok (EvMsg (pr_topic p) (pr_pid p) (exp_msg (wb_h w) r) :: evs, s').
Proof. exact grow_delivers. Qed.
Print Assumptions C11_growth_delivers_partial.
(** One round: no complete record of the set fits, so the size doubles. *)
Theorem C11_too_small_reported_partial : forall unzip zip v st p w ws r rs max,
  (v = 0 \/ v = 7 \/ v = 10) -> wf_resp p -> Forall (plain unzip) (w :: ws) ->
  wb_recs w = r :: rs -> 0 < max < 2 ^ 31 -> max < 61 + zlen (enc_srecord r) ->
  exists s', fetch_round unzip zip v st p (flat_map enc_wb (w :: ws)) max = Ok ([EvErr EMaxBytesTooSmall], s').
Proof. exact round_small. Qed.
Print Assumptions C11_too_small_reported_partial.
Example C11_ex : Forall (plain err0) [b1; b2] /\ wf_resp (resp []) /\
  fetch_max err0 err0 3 10 7 (resp []) (flat_map enc_wb [b1; b2]) 9 = 72 /\
  fetch_max err0 err0 4 10 7 (resp []) (flat_map enc_wb [b1; b2]) 9 = 72.
Proof.
  split; [|split; [wf|split; vm_compute; reflexivity]].
  repeat constructor; wf.
Qed.
(** Findings: a compressed batch larger than the fetch size is reported as another error,
    the size never grows and the same fetch is repeated forever; and a complete batch
    without a wanted record (compacted log) is reported as too small, so the size doubles
    until it overflows to a negative number. *)
Theorem C11_compressed_stuck_refuted : exists w max,
  let unzip := fits (wb_payload w) in
  wf_wb unzip w /\ 0 < max < zlen (enc_wb w) /\ zlen (enc_wb w) < 2 ^ 30 /\
  forall n, fetch_max unzip err0 n 10 0 (resp []) (enc_wb w) max = max /\
    exists s', fetch_round unzip err0 10 0 (resp []) (enc_wb w) max = Ok ([EvErr (EWrap EUnexpectedEOF)], s').
Proof. exact compressed_stuck. Qed.
Print Assumptions C11_compressed_stuck_refuted.
Theorem C11_overflow_refuted : exists w st, wf_wb err0 w /\
  (forall max, zlen (enc_wb w) <= max -> exists s', fetch_round err0 err0 10 st (resp []) (enc_wb w) max = Ok ([EvErr EMaxBytesTooSmall], s')) /\
  fetch_max err0 err0 8 10 st (resp []) (enc_wb w) (10 * 1024 * 1024) = -1610612736.
Proof. exact below_start_overflow. Qed.
Print Assumptions C11_overflow_refuted.

(** *** C12, fetch responses *)
(** Whatever a fetch response contains and however it is cut into reads: once it is
    decoded, exactly the bytes after it are left on the connection. *)
Theorem C12_fetch_leaves_rest_partial : forall unzip zip v st body rest chunks fin evs s',
  concat chunks = body ++ rest ->
  streamDecode unzip zip v st (zlen body) (mkStream chunks fin) = Ok (evs, s') ->
  concat (st_chunks (d_in s')) = rest.
Proof. exact stream_consumes_response. Qed.
Print Assumptions C12_fetch_leaves_rest_partial.
Example C12_ex_fetch : exists evs s',
  streamDecode err0 err0 7 0 20 (mkStream [[0; 0; 0]; repeat 1 12; repeat 2 9] ETimeout) = Ok (evs, s') /\
  concat (st_chunks (d_in s')) = repeat 2 4.
Proof. do 2 eexists; split; vm_compute; reflexivity. Qed.
(** Finding: a partition header split between two reads is misread. *)
Theorem C12_split_fetch_header_refuted : exists w a b, wf_wb err0 w /\
  let p := resp (enc_wb w) in enc_presp 10 p = a ++ b /\
  (exists m s', streamDecode err0 err0 10 0 (zlen (enc_presp 10 p)) (mkStream [a ++ b] ETimeout) = Ok ([EvMsg [116] 3 m], s')) /\
  exists e s', streamDecode err0 err0 10 0 (zlen (enc_presp 10 p)) (mkStream [a; b] ETimeout) = Ok ([EvErr e], s').
Proof. exact split_header. Qed.
Print Assumptions C12_split_fetch_header_refuted.

(** *** C24, fetch responses *)
Theorem C24_fetch_partition_error_partial : forall unzip zip v st p code rest chunks fin,
  (v = 0 \/ v = 7 \/ v = 10) -> wf_presp p -> i16 code -> code <> 0 ->
  concat chunks = enc_presp_head v p ++ (enc_presp_part v code p ++ pr_records p) ++ rest ->
  fields_ok chunks (length (enc_presp_head v p)) [4; 2]%nat ->
  exists s', streamDecode unzip zip v st (zlen (enc_presp_head v p ++ enc_presp_part v code p ++ pr_records p)) (mkStream chunks fin) =
    Ok ([EvErr (EKafka code)], s') /\ concat (st_chunks (d_in s')) = rest.
Proof. exact fetch_error_code. Qed.
Print Assumptions C24_fetch_partition_error_partial.
Example C24_ex_fetch : let e := enc_presp_head 10 (resp []) ++ enc_presp_part 10 6 (resp []) in
  exists s', streamDecode err0 err0 10 0 (zlen e) (mkStream [e] ETimeout) = Ok ([EvErr (EKafka 6)], s').
Proof. cbv zeta; eexists; vm_compute; reflexivity. Qed.
(** Finding: an error code for the whole fetch (versions 7 and 10) is not reported. *)
Theorem C24_fetch_top_error_refuted : forall unzip zip v st corr throttle code session fin, (v = 7 \/ v = 10) ->
  exists s', streamDecode unzip zip v st (zlen (enc_top_error corr throttle code session))
               (mkStream [enc_top_error corr throttle code session] fin) = Ok ([], s').
Proof. exact fetch_top_error. Qed.
Print Assumptions C24_fetch_top_error_refuted.

(** *** C25, fetch responses *)
(** Finding: a record header without value, which the format allows, crashes the
    decoder. *)
Theorem C25_fetch_null_header_refuted : exists r, wf_srecord r /\
  let p := resp (enc_sbatch (hdr 7 0 1) 1 (enc_srecord r)) in
  streamDecode err0 err0 10 0 (zlen (enc_presp 10 p)) (mkStream [enc_presp 10 p] ETimeout) = Panic.
Proof. exact null_header_panics. Qed.
Print Assumptions C25_fetch_null_header_refuted.

(** *** C09, codec 4 *)
(** Finding: of the three bits that name the codec two are looked at, so that a batch
    compressed with zstd passes for an uncompressed one.  Its bytes begin with those of a
    zstd frame (here with one raw block, which is what [unzstd] undoes), that is with a
    record with a negative offset delta.  No unknown codec is reported: the message is not
    handed out and the consumer is told that its fetch size is too small; with other message
    contents the process crashes. *)
Definition unzstd (c : Z) (b : bytes) : res bytes :=
  if (c =? 4) && beqb (firstn 5 b) [40; 181; 47; 253; 32] then Ok (firstn (Z.to_nat (nth 5 b 0)) (skipn 9 b)) else Err (EInvalid 0).
Definition zstd_batch (value : bytes) : wbatch :=
  let raw := enc_srecord (rec 0 [107] value) in
  mkWB (hdr 5 4 1) [rec 0 [107] value] ([40; 181; 47; 253; 32; zlen raw; 8 * zlen raw + 1; 0; 0] ++ raw).
Definition zstd_case (value : bytes) (p : presp) : Prop :=
  exists w, wb_codec w = 4 /\ unzstd 4 (wb_payload w) = Ok (flat_map enc_srecord (wb_recs w)) /\ wf_presp p /\ pr_records p = enc_wb w /\
  exp_all (pr_topic p) (pr_pid p) 5 [w] = [EvMsg [116] 3 (mkMsg 5 2 0 1000 (Some [107]) (Some value) [])].
Theorem C09_zstd_frame_refuted :
  (exists value p s', zstd_case value p /\
     streamDecode unzstd unzstd 10 5 (zlen (enc_presp 10 p)) (mkStream [enc_presp 10 p] EPipe) = Ok ([EvErr EMaxBytesTooSmall], s')) /\
  (exists value p, zstd_case value p /\
     streamDecode unzstd unzstd 10 5 (zlen (enc_presp 10 p)) (mkStream [enc_presp 10 p] EPipe) = Panic).
Proof.
  split; [exists (repeat 0 12), (resp (enc_wb (zstd_batch (repeat 0 12)))); eexists; split|
          exists (repeat 118 12), (resp (enc_wb (zstd_batch (repeat 118 12)))); split].
  1: exists (zstd_batch (repeat 0 12)). 3: exists (zstd_batch (repeat 118 12)).
  2, 4: vm_compute; reflexivity.
  all: split; [reflexivity|]; split; [vm_compute; reflexivity|]; split; [repeat split; cbn; unfold i8, i16, i32, i64; try lia; repeat constructor|];
    split; [reflexivity|vm_compute; reflexivity].
Qed.
Print Assumptions C09_zstd_frame_refuted.

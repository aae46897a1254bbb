(** Errors reported by fetch responses, and witnesses for the findings about the fetch
    decoder. *)
From Verif Require Import Base BaseFacts RecordSpec Records RecordFacts Fetch FetchSpec FetchFacts FetchOld FetchKeep DeliverFacts FetchGrow.

(** a partition error code reaches the consumer *)
Lemma fetch_error_code unzip zip v st p code rest chunks fin :
  (v = 0 \/ v = 7 \/ v = 10) -> wf_presp p -> i16 code -> code <> 0 ->
  concat chunks = enc_presp_head v p ++ (enc_presp_part v code p ++ pr_records p) ++ rest ->
  fields_ok chunks (length (enc_presp_head v p)) [4; 2]%nat ->
  exists s', streamDecode unzip zip v st (zlen (enc_presp_head v p ++ enc_presp_part v code p ++ pr_records p)) (mkStream chunks fin) =
    Ok ([EvErr (EKafka code)], s') /\ concat (st_chunks (d_in s')) = rest.
Proof.
  intros Hv Hwf Hc Hc0 Hch Hf.
  destruct (stream_header_at unzip zip v st p code _ rest chunks fin Hv Hwf Hch Hf) as [s [A [F E]]].
  unfold enc_presp_part in A. rewrite <- !app_assoc in A.
  unfold decodePartitionResponse, decodePartition in E.
  destruct (field_at unzip zip (be 4 (pr_pid p)) 4 _ _ _ _ _ _ _ 4 (repeat 0 8) A (zlen_be _ _) ltac:(lia) eq_refl F) as [s1 [E1 [A1 F1]]].
  erewrite dbind_ok in E by exact E1. cbv zeta in E.
  destruct (field_at unzip zip (be 2 code) 2 _ _ _ _ _ _ _ 2 (be 4 (pr_pid p) ++ skipn (length (be 4 (pr_pid p))) (repeat 0 8)) A1 (zlen_be _ _) ltac:(lia) eq_refl F1) as [s2 [E2 [A2 F2]]].
  erewrite dbind_ok in E by exact E2. rewrite !(firstn_be_app unzip zip), !unbe_be in E.
  change (256 ^ Z.of_nat 2) with (2 ^ 16) in E. rewrite sint_mod in E by lia.
  rewrite (sint_id 16) in E by (try lia; exact Hc).
  destruct (Z.eqb_spec code 0); [congruence|]. cbn [negb] in E. unfold dfail in E. cbn [is_eof err_root] in E.
  eexists. split.
  - rewrite E. destruct A2 as [_ [_ [_ [_ [_ Ho]]]]]. rewrite Ho. reflexivity.
  - eapply stream_consumes_response; [|exact E]. rewrite Hch, <- !app_assoc. reflexivity.
Qed.

(** the top-level error code of versions 7 and 10 *)
Definition enc_top_error (corr throttle code session : Z) : bytes :=
  be 4 corr ++ be 4 throttle ++ be 2 code ++ be 4 session ++ be 4 0.
Lemma fetch_top_error unzip zip v st corr throttle code session fin : (v = 7 \/ v = 10) ->
  exists s', streamDecode unzip zip v st (zlen (enc_top_error corr throttle code session))
               (mkStream [enc_top_error corr throttle code session] fin) = Ok ([], s').
Proof. intros [-> | ->]; unfold streamDecode; eexists; cbn; reflexivity. Qed.

Definition err0 (c : Z) (b : bytes) : res bytes := Err EUnexpectedEOF.
(** header of a batch with attributes [attr] and base offset [base] *)
Definition hdr (base attr n : Z) : sbatch := mkSBatch base 0 attr (n - 1) 1000 1000 (-1) 0 0.
Definition rec (od : Z) (k v : bytes) : srecord := mkSRec 0 0 od (Some k) (Some v) [].
Definition resp (records : bytes) : presp := mkPR 1 0 0 [116] 3 100 100 0 None records.

Ltac wf := repeat split; cbn; unfold i8, i16, i32, i64; try lia; repeat constructor; try (cbn; lia); try congruence.

(** codec 4 (zstd): the compressed bytes are taken for records, whatever decompressor
    there is *)
Lemma zstd_as_plain : exists payload, forall unzip zip, exists s',
  let p := resp (enc_sbatch (hdr 7 4 1) 1 payload) in
  streamDecode unzip zip 10 0 (zlen (enc_presp 10 p)) (mkStream [enc_presp 10 p] ETimeout) =
  Ok ([EvMsg [116] 3 (mkMsg 7 2 0 1000 None (Some [181; 47; 253]) [])], s').
Proof.
  exists [20; 0; 0; 0; 0; 6; 181; 47; 253; 0; 0; 1; 2]. intros unzip zip. eexists. vm_compute. reflexivity.
Qed.

(** a control batch (attribute bit 5) is delivered like data *)
Lemma control_delivered : exists w, Z.testbit (sb_attr (wb_h w)) 5 = true /\ wf_wb err0 w /\ exists m s',
  let p := resp (enc_wb w) in
  streamDecode err0 err0 10 0 (zlen (enc_presp 10 p)) (mkStream [enc_presp 10 p] ETimeout) = Ok ([EvMsg [116] 3 m], s').
Proof.
  exists (mkWB (hdr 7 32 1) [rec 0 [0; 0; 0; 0] [0; 0; 0; 0; 0; 0]] (enc_srecord (rec 0 [0; 0; 0; 0] [0; 0; 0; 0; 0; 0]))).
  split; [reflexivity|]. split; [wf|]. do 2 eexists. vm_compute. reflexivity.
Qed.

(** *** magic 0 and 1 *)
Definition old_msg (off : Z) (v : bytes) : smsg := mkSM off 1 0 5 None (Some v).
(** the last byte of the value of the second message is cut off: a zero takes its place *)
Lemma old_cut_corrupt : exists m1 m2 k, wf_smsg m1 /\ wf_smsg m2 /\ (k < length (enc_smsg m2))%nat /\
  sm_value m2 = Some [65; 66; 67] /\
  exists s', let p := resp (enc_smsg m1 ++ firstn k (enc_smsg m2)) in
  streamDecode err0 err0 10 0 (zlen (enc_presp 10 p)) (mkStream [enc_presp 10 p] ETimeout) =
  Ok ([EvMsg [116] 3 (exp_smsg m1); EvMsg [116] 3 (mkMsg (sm_offset m2) 1 0 5 None (Some [65; 66; 0]) [])], s').
Proof.
  exists (old_msg 7 [65]), (old_msg 8 [65; 66; 67]), 36%nat.
  split; [wf|]. split; [wf|]. split; [vm_compute; lia|]. split; [reflexivity|]. eexists. vm_compute. reflexivity.
Qed.
(** a message whose body arrives in two reads: nothing is delivered, and a too small
    fetch size is reported although everything arrived *)
Lemma old_split_lost : exists m a b, wf_smsg m /\
  let p := resp (enc_smsg m) in enc_presp 10 p = a ++ b /\
  (exists s', streamDecode err0 err0 10 0 (zlen (enc_presp 10 p)) (mkStream [a ++ b] ETimeout) = Ok ([EvMsg [116] 3 (exp_smsg m)], s')) /\
  exists s', streamDecode err0 err0 10 0 (zlen (enc_presp 10 p)) (mkStream [a; b] ETimeout) = Ok ([EvErr EMaxBytesTooSmall], s').
Proof.
  exists (old_msg 7 [65; 66; 67]). set (e := enc_presp 10 (resp (enc_smsg (old_msg 7 [65; 66; 67])))).
  exists (firstn (length e - 2) e), (skipn (length e - 2) e).
  split; [wf|]. cbv zeta. split; [symmetry; apply firstn_skipn|]. split; eexists; vm_compute; reflexivity.
Qed.

(** *** splitting the partition header *)
Lemma split_header : exists w a b, wf_wb err0 w /\
  let p := resp (enc_wb w) in enc_presp 10 p = a ++ b /\
  (exists m s', streamDecode err0 err0 10 0 (zlen (enc_presp 10 p)) (mkStream [a ++ b] ETimeout) = Ok ([EvMsg [116] 3 m], s')) /\
  exists e s', streamDecode err0 err0 10 0 (zlen (enc_presp 10 p)) (mkStream [a; b] ETimeout) = Ok ([EvErr e], s').
Proof.
  set (w := mkWB (hdr 7 0 1) [rec 0 [107] [118]] (enc_srecord (rec 0 [107] [118]))).
  set (e := enc_presp 10 (resp (enc_wb w))).
  exists w, (firstn 32 e), (skipn 32 e). split; [wf|]. cbv zeta. split; [symmetry; apply firstn_skipn|]. split; do 2 eexists; vm_compute; reflexivity.
Qed.

(** *** the fetch size *)
(** a compressed batch larger than the fetch size *)
Definition fits (full : bytes) (c : Z) (b : bytes) : res bytes :=
  if beqb b full then Ok (flat_map enc_srecord [rec 0 [107] [118]]) else Err EUnexpectedEOF.
Lemma compressed_stuck : exists w max,
  let unzip := fits (wb_payload w) in
  wf_wb unzip w /\ 0 < max < zlen (enc_wb w) /\ zlen (enc_wb w) < 2 ^ 30 /\
  forall n, fetch_max unzip err0 n 10 0 (resp []) (enc_wb w) max = max /\
    exists s', fetch_round unzip err0 10 0 (resp []) (enc_wb w) max = Ok ([EvErr (EWrap EUnexpectedEOF)], s').
Proof.
  exists (mkWB (hdr 7 1 1) [rec 0 [107] [118]] [31; 139; 8; 0; 1; 2; 3]), 64. cbv zeta.
  split; [split; [wf|reflexivity]|]. split; [vm_compute; split; reflexivity|]. split; [vm_compute; reflexivity|].
  set (w := mkWB _ _ _).
  assert (R : exists s', fetch_round (fits (wb_payload w)) err0 10 0 (resp []) (enc_wb w) 64 = Ok ([EvErr (EWrap EUnexpectedEOF)], s'))
    by (eexists; vm_compute; reflexivity).
  intros n. split; [|exact R]. induction n as [|n IH]; [reflexivity|]. cbn [fetch_max]. cbv zeta. rewrite IH.
  destruct R as [s' R]. rewrite R. reflexivity.
Qed.

(** a complete batch without a wanted record (compacted log): the size doubles until it
    overflows *)
Lemma below_start_overflow : exists w st, wf_wb err0 w /\
  (forall max, zlen (enc_wb w) <= max -> exists s', fetch_round err0 err0 10 st (resp []) (enc_wb w) max = Ok ([EvErr EMaxBytesTooSmall], s')) /\
  fetch_max err0 err0 8 10 st (resp []) (enc_wb w) (10 * 1024 * 1024) = -1610612736.
Proof.
  set (w := mkWB (hdr 7 0 1) [rec 0 [107] [118]] (enc_srecord (rec 0 [107] [118]))).
  exists w, 8. split; [wf|].
  assert (L : zlen (enc_wb w) = 70) by (vm_compute; reflexivity).
  assert (R : forall max, zlen (enc_wb w) <= max -> exists s', fetch_round err0 err0 10 8 (resp []) (enc_wb w) max = Ok ([EvErr EMaxBytesTooSmall], s')).
  { intros max Hm. unfold fetch_round, resp_for. rewrite firstn_all2 by (unfold zlen in Hm; lia). eexists. vm_compute. reflexivity. }
  split; [exact R|]. rewrite L in R.
  assert (S : forall k m, fetch_max err0 err0 k 10 8 (resp []) (enc_wb w) (10 * 1024 * 1024) = m -> 70 <= m ->
     fetch_max err0 err0 (S k) 10 8 (resp []) (enc_wb w) (10 * 1024 * 1024) = sint 32 (m * 2)).
  { intros k m Hk Hm. cbn [fetch_max]. cbv zeta. rewrite Hk. destruct (R m Hm) as [s' ->]. reflexivity. }
  assert (H0 : fetch_max err0 err0 0 10 8 (resp []) (enc_wb w) (10 * 1024 * 1024) = 10485760) by reflexivity.
  apply S in H0; [|lia]. change (sint 32 (10485760 * 2)) with 20971520 in H0.
  apply S in H0; [|lia]. change (sint 32 (20971520 * 2)) with 41943040 in H0.
  apply S in H0; [|lia]. change (sint 32 (41943040 * 2)) with 83886080 in H0.
  apply S in H0; [|lia]. change (sint 32 (83886080 * 2)) with 167772160 in H0.
  apply S in H0; [|lia]. change (sint 32 (167772160 * 2)) with 335544320 in H0.
  apply S in H0; [|lia]. change (sint 32 (335544320 * 2)) with 671088640 in H0.
  apply S in H0; [|lia]. change (sint 32 (671088640 * 2)) with 1342177280 in H0.
  apply S in H0; [|lia]. rewrite H0. reflexivity.
Qed.

(** a null header value crashes the decoder *)
Lemma null_header_panics : exists r, wf_srecord r /\
  let p := resp (enc_sbatch (hdr 7 0 1) 1 (enc_srecord r)) in
  streamDecode err0 err0 10 0 (zlen (enc_presp 10 p)) (mkStream [enc_presp 10 p] ETimeout) = Panic.
Proof. exists (mkSRec 0 0 0 None (Some [118]) [([104], None)]). split; [wf|vm_compute; reflexivity]. Qed.

(** *** headers in the first read *)
Lemma stream_first_read unzip zip v st p rs rest c cs fin :
  (v = 0 \/ v = 7 \/ v = 10) -> wf_presp p -> wf_rset unzip rs -> pr_records p = enc_rset rs ->
  concat (c :: cs) = enc_presp v p ++ rest ->
  zlen (enc_presp v p) - zlen (pr_records p) <= zlen c ->
  exists s', streamDecode unzip zip v st (zlen (enc_presp v p)) (mkStream (c :: cs) fin) = Ok (exp_presp st p rs, s') /\
    concat (st_chunks (d_in s')) = rest.
Proof.
  intros Hv Hwf Hrs He Hc Hl. apply stream_decode_at; try assumption.
  apply fields_first. unfold enc_presp in Hl. rewrite !zlen_app in Hl. unfold zlen in Hl. lia.
Qed.
Lemma old_fields_sum ms cut : wf_old ms cut -> (list_sum (old_fields ms cut) <= length (enc_old ms cut))%nat.
Proof.
  assert (L : forall m, (17 + Z.to_nat (sm_size m - 5) = length (enc_smsg m))%nat /\ (12 + Z.to_nat (sm_size m) = length (enc_smsg m))%nat).
  { intros m. pose proof (enc_smsg_len m) as H. pose proof (sm_body_len m). unfold sm_size, zlen in *. lia. }
  intros [_ Hc]. unfold old_fields, enc_old. destruct ms as [|m ms].
  - cbn [flat_map app]. destruct cut as [[m k]|]; [|cbn; lia]. destruct Hc as [_ Hk]. rewrite firstn_length.
    destruct (Nat.ltb_spec k 17); cbn [list_sum fold_right]; lia.
  - cbn [flat_map]. rewrite !list_sum_app, !app_length. cbn [list_sum fold_right]. pose proof (L m) as [L1 _].
    assert (Hs : forall l, list_sum (flat_map fields12 l) = length (flat_map enc_smsg l)).
    { induction l as [|x l IH]; [reflexivity|]. cbn [flat_map]. rewrite list_sum_app, app_length, IH. unfold fields12. cbn [list_sum fold_right].
      pose proof (L x) as [_ L2]. lia. }
    rewrite Hs. destruct cut as [[m' k]|]; [|cbn [list_sum fold_right length]; lia]. destruct Hc as [_ Hk]. rewrite firstn_length. unfold cut12.
    destruct (Nat.ltb_spec k 12); cbn [list_sum fold_right]; lia.
Qed.
Lemma old_one_read unzip zip v st p ms cut rest cs fin :
  (v = 0 \/ v = 7 \/ v = 10) -> wf_presp p -> wf_old ms cut -> pr_records p = enc_old ms cut -> enc_old ms cut <> [] ->
  concat (enc_presp v p :: cs) = enc_presp v p ++ rest ->
  exists e s', streamDecode unzip zip v st (zlen (enc_presp v p)) (mkStream (enc_presp v p :: cs) fin) =
        Ok (if nonempty (exp_old (pr_topic p) (pr_pid p) st ms) then exp_old (pr_topic p) (pr_pid p) st ms
            else [EvErr e], s') /\
      (e = EMaxBytesTooSmall \/ (e = EUnexpectedEOF /\ ms <> [])) /\
      concat (st_chunks (d_in s')) = rest.
Proof.
  intros Hv Hwf Ho He Hne Hc. apply (stream_old unzip zip v st p ms cut); try assumption. apply fields_ok_one.
  rewrite list_sum_app, part_fields_sum. pose proof (old_fields_sum ms cut Ho). unfold enc_presp. rewrite !app_length, He. lia.
Qed.

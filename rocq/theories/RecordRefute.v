(** Witnesses for the findings about records and batches. *)
From Verif Require Import Base BaseFacts RecordSpec Records RecordFacts Fetch FetchSpec FetchFacts DeliverFacts.

Lemma absent_vs_empty :
  exists s1 s2, enc_srecord s1 <> enc_srecord s2 /\ sr_key s1 = None /\ sr_key s2 = Some [] /\
    sr_value s1 = None /\ sr_value s2 = Some [] /\
    forall rest, decodeToRecord (enc_srecord s1 ++ rest) = Ok (mkRec 0 0 0 None None [], rest) /\
                 decodeToRecord (enc_srecord s2 ++ rest) = Ok (mkRec 0 0 0 None None [], rest).
Proof.
  exists (mkSRec 0 0 0 None None []), (mkSRec 0 0 0 (Some []) (Some []) []).
  split; [vm_compute; congruence|]. do 4 (split; [reflexivity|]).
  intros rest; split; (rewrite decodeToRecord_enc; [reflexivity| |constructor]);
    unfold wf_srecord; cbn; unfold i8, i32, i64; repeat split; try lia; constructor.
Qed.

Lemma compressor_error zip b : Z.land (rb_attr b) 3 <> 0 ->
  (forall c x, exists e, zip c x = Err e) -> batch_encode zip b = Panic.
Proof.
  intros H Hz. unfold batch_encode, batch_payload. cbv zeta. destruct (Z.eqb_spec (Z.land (rb_attr b) 3) 0); [congruence|].
  destruct (Hz (Z.land (rb_attr b) 3) (flat_map record_encode (rb_records b))) as [e ->]. reflexivity.
Qed.

Lemma offset_deltas : exists kvs out r1 r2,
  zlen kvs = 2 /\ batch_encode (fun _ _ => Err (EInvalid 0)) (createRecordBatch 2 0 1000 (map produced kvs)) = Ok out /\
  skipn 61 out = enc_srecord r1 ++ enc_srecord r2 /\ wf_srecord r1 /\ wf_srecord r2 /\
  sr_od r1 = 0 /\ sr_od r2 = 0.
Proof.
  exists [(Some [107], [118; 119]); (None, [120])]. eexists.
  exists (mkSRec 0 0 0 (Some [107]) (Some [118; 119]) []), (mkSRec 0 0 0 None (Some [120]) []).
  split; [reflexivity|]. split; [vm_compute; reflexivity|]. split; [vm_compute; reflexivity|].
  repeat split; cbn; unfold i8, i32, i64; try lia; try constructor.
Qed.

Lemma same_offset unzip zip codec ts off epoch kvs out v p start chunks rest fin :
  (v = 0 \/ v = 7 \/ v = 10) -> 0 <= codec <= 3 ->
  (forall b c, codec <> 0 -> zip codec b = Ok c -> unzip codec c = Ok b) ->
  i64 off -> i32 epoch -> 0 <= ts < 2 ^ 63 -> kvs <> [] -> Forall kv_ok kvs -> zlen kvs < 2 ^ 31 ->
  batch_encode zip (createRecordBatch 2 codec ts (map produced kvs)) = Ok out -> zlen out < 2 ^ 31 ->
  wf_presp p -> pr_records p = broker_assign off epoch out -> start <= off ->
  concat chunks = enc_presp v p ++ rest ->
  fields_ok chunks (length (enc_presp_head v p)) (part_fields v p) ->
  exists evs s', streamDecode unzip zip v start (zlen (enc_presp v p)) (mkStream chunks fin) = Ok (evs, s') /\
    length evs = length kvs /\ forall e, In e evs -> exists t pid m, e = EvMsg t pid m /\ m_offset m = off.
Proof.
  intros H1 H2 H3 H4 H5 H6 H7 H8 H9 H10 H11 H12 H13 H14 H15 H16.
  destruct (produced_delivered unzip zip codec ts off epoch kvs out v p start chunks rest fin) as [s' [E _]]; try assumption.
  eexists _, s'. split; [exact E|]. split; [apply map_length|]. intros e He. apply in_map_iff in He.
  destruct He as [kv [<- _]]. do 3 eexists; split; reflexivity.
Qed.

Lemma single_record unzip zip codec ts off epoch kv out v p start chunks rest fin :
  (v = 0 \/ v = 7 \/ v = 10) -> 0 <= codec <= 3 ->
  (forall b c, codec <> 0 -> zip codec b = Ok c -> unzip codec c = Ok b) ->
  i64 off -> i32 epoch -> 0 <= ts < 2 ^ 63 -> kv_ok kv ->
  batch_encode zip (createRecordBatch 2 codec ts (map produced [kv])) = Ok out -> zlen out < 2 ^ 31 ->
  wf_presp p -> pr_records p = broker_assign off epoch out -> start <= off ->
  concat chunks = enc_presp v p ++ rest ->
  fields_ok chunks (length (enc_presp_head v p)) (part_fields v p) ->
  exists s', streamDecode unzip zip v start (zlen (enc_presp v p)) (mkStream chunks fin) =
    Ok ([EvMsg (pr_topic p) (pr_pid p) (mkMsg (off + 0) 2 0 ts (nz (fst kv)) (nz (Some (snd kv))) [])], s').
Proof.
  intros H1 H2 H3 H4 H5 H6 H8 H10 H11 H12 H13 H14 H15 H16.
  destruct (produced_delivered unzip zip codec ts off epoch [kv] out v p start chunks rest fin) as [s' [E _]]; try assumption.
  - congruence.
  - constructor; [assumption|constructor].
  - cbn; lia.
  - exists s'. rewrite E. rewrite Z.add_0_r. reflexivity.
Qed.

Lemma varint_len2 x : x < -64 \/ 64 <= x -> (2 <= length (varint x))%nat.
Proof.
  intros H. unfold varint, uvarint, zigzag. cbn [put_uvarint].
  destruct (Z.ltb_spec x 0);
  match goal with |- context[?a <? 128] => destruct (Z.ltb_spec a 128); [lia|cbn [length]] end;
  match goal with |- context[?a <? 128] => destruct (a <? 128); cbn [length]; lia end.
Qed.

Lemma absent_key r : r_key r = None -> i32 (r_od r) -> (r_od r < -64 \/ 64 <= r_od r) ->
  record_encode r <> enc_srecord (to_spec r).
Proof.
  intros Hk Hi Ho E. unfold record_encode, enc_srecord in E.
  assert (Hlen : zlen (enc_sbody (to_spec r)) < zlen (record_body r)).
  { unfold record_body, enc_sbody, to_spec. cbn [sr_attr sr_ts sr_od sr_key sr_value sr_headers]. rewrite Hk. unfold key_len_bytes, enc_vbytes.
    rewrite !zlen_app.
    assert (Hv : zlen (varint (olen (r_value r))) + zlen (obytes (r_value r)) = zlen (varint (zlen (obytes (r_value r))) ++ obytes (r_value r))).
    { rewrite zlen_app. destruct (r_value r); reflexivity. }
    assert (zlen (map (fun h : bytes * bytes => (fst h, Some (snd h))) (r_headers r)) = zlen (r_headers r)) as -> by (unfold zlen; rewrite map_length; reflexivity).
    assert (flat_map enc_sheader (map (fun h : bytes * bytes => (fst h, Some (snd h))) (r_headers r)) = flat_map header_bytes (r_headers r)) as ->.
    { rewrite flat_map_concat_map, map_map, <- flat_map_concat_map. apply flat_map_ext. intros [a b]. reflexivity. }
    rewrite zlen_app in Hv.
    assert (Hw : 2 <= zlen (firstn (length (varint (r_od r))) (varint (-1) ++ repeat 0 9))).
    { pose proof (varint_len2 (r_od r) Ho). pose proof (varint_len (r_od r)) as Hl. unfold zlen in *. rewrite firstn_length.
      change (length (varint (-1) ++ repeat 0 9)) with 10%nat. lia. }
    change (zlen (varint (-1))) with 1. rewrite zlen_be. change (zlen [uint 8 (r_attr r)]) with 1. change (zlen (@nil Z)) with 0.
    change (zlen (obytes None)) with 0. lia. }
  assert (E' : zlen (varint (zlen (record_body r)) ++ record_body r) = zlen (varint (zlen (enc_sbody (to_spec r))) ++ enc_sbody (to_spec r))) by (f_equal; exact E).
  rewrite !zlen_app in E'.
  (* prefix lengths are monotone *)
  assert (Hmono : forall f x y, 0 <= x <= y -> (length (put_uvarint f x) <= length (put_uvarint f y))%nat).
  { induction f as [|f IH]; intros x y Hxy; cbn [put_uvarint length]; [lia|].
    destruct (Z.ltb_spec x 128); destruct (Z.ltb_spec y 128); cbn [length]; try lia.
    assert (x / 128 <= y / 128) by (apply Z.div_le_mono; lia).
    specialize (IH (x / 128) (y / 128) ltac:(split; [apply Z.div_pos; lia|assumption])). lia. }
  unfold varint, uvarint in E'. pose proof (Hmono 10%nat (zigzag (zlen (enc_sbody (to_spec r)))) (zigzag (zlen (record_body r)))) as M.
  pose proof (zlen_nonneg (enc_sbody (to_spec r))).
  assert (0 <= zigzag (zlen (enc_sbody (to_spec r))) <= zigzag (zlen (record_body r))).
  { unfold zigzag. destruct (Z.ltb_spec (zlen (enc_sbody (to_spec r))) 0); destruct (Z.ltb_spec (zlen (record_body r)) 0); lia. }
  specialize (M ltac:(assumption)). unfold zlen in *. lia.
Qed.

Lemma absent_key_panic : exists r, r_key r = None /\ r_od r = 200 /\ wf_record r /\ decodeToRecord (record_encode r) = Panic.
Proof.
  exists (mkRec 0 0 200 None (Some [1; 2; 3]) []). split; [reflexivity|]. split; [reflexivity|].
  split; [|vm_compute; reflexivity]. unfold wf_record, wf_srecord; cbn; unfold i8, i32, i64; repeat split; try lia; constructor.
Qed.

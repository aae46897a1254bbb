(** Produce requests read back by ProduceRequest.Decode. *)
From Verif Require Import Base BaseFacts Wire WireFacts Prims PrimsFacts Group Records RecordSpec RecordFacts Requests RequestSpec RequestFacts RequestBodies RequestFlex RequestPrep
  Responses ResponseSpec ResponseFacts ResponseDecode ReqDecode ReqDecodeFacts ReqDecodeRt.
Local Open Scope ty_scope.

(** ** Records and batches *)
Definition rec_ok (r : Record) : Prop := key_ok r /\ wf_record r.
Lemma records_read rs : forall rest, Forall rec_ok rs ->
  rd_records (length rs) (flat_map record_encode rs ++ rest) = Ok (map norm rs, true, rest).
Proof.
  induction rs as [|r rs IH]; intros rest H; [reflexivity|]. inversion H as [|? ? [Hk Hw] Hr]; subst. cbn [length rd_records flat_map map].
  rewrite <- app_assoc, record_roundtrip by assumption. rewrite IH by exact Hr. reflexivity.
Qed.
(** uncompressed, every field in range *)
Definition raw_of (b : RecordBatch) : bytes := flat_map record_encode (rb_records b).
Definition rbatch_ok (b : RecordBatch) : Prop :=
  i64 (rb_base b) /\ i32 (rb_epoch b) /\ i8 (rb_magic b) /\ i16 (rb_attr b) /\ Z.land (rb_attr b) 3 = 0 /\ i32 (rb_lod b) /\ i64 (rb_bts b) /\
  i64 (rb_mts b) /\ i64 (rb_pid b) /\ i16 (rb_pepoch b) /\ i32 (rb_seq b) /\ zlen (rb_records b) < 2 ^ 31 /\ Forall rec_ok (rb_records b) /\
  49 + zlen (raw_of b) < 2 ^ 31.
(** the batch the decoder reports: absent and empty keys and values are the same *)
Definition norm_batch (b : RecordBatch) : RecordBatch :=
  mkRB (rb_base b) (rb_epoch b) (rb_magic b) (rb_attr b) (rb_lod b) (rb_bts b) (rb_mts b) (rb_pid b) (rb_pepoch b) (rb_seq b) (map norm (rb_records b)).
Definition got_batch (b : RecordBatch) : dbatch :=
  (49 + zlen (raw_of b), (crc32c (batch_tail b (raw_of b)) mod 2 ^ 32, norm_batch b)).
Lemma tail_len b p : zlen (batch_tail b p) = 40 + zlen p.
Proof. unfold batch_tail. rewrite !zlen_app, !zlen_be. lia. Qed.
Definition batch_bytes (b : RecordBatch) : bytes :=
  be 8 (rb_base b) ++ be 4 (49 + zlen (raw_of b)) ++ be 4 (rb_epoch b) ++ be 1 (rb_magic b) ++ be 4 (crc32c (batch_tail b (raw_of b))) ++ batch_tail b (raw_of b).
Lemma batch_sent zip b : rbatch_ok b -> batch_encode zip b = Ok (batch_bytes b).
Proof.
  intros (_ & _ & _ & _ & Hc & _ & _ & _ & _ & _ & _ & _ & _ & Hl). unfold batch_encode, batch_payload. fold (raw_of b). rewrite Hc. cbn [Z.eqb rbind]. rewrite tail_len.
  unfold batch_bytes. rewrite be4_uint. do 3 f_equal. f_equal. lia.
Qed.
Lemma batch_read b rest : rbatch_ok b ->
  decodeToRecordBatch (batch_bytes b ++ rest) = Ok ((got_batch b, true), rest).
Proof.
  intros (H1 & H2 & H3 & H4 & _ & H5 & H6 & H7 & H8 & H9 & H10 & H11 & H12 & H13). pose proof (zlen_nonneg (raw_of b)). pose proof (zlen_nonneg (rb_records b)).
  set (crc := crc32c (batch_tail b (raw_of b))). unfold decodeToRecordBatch, batch_bytes. fold crc. unfold batch_tail. rewrite <- !app_assoc.
  erewrite bind_ok by (apply rd_i64_be; exact H1). erewrite bind_ok by (apply rd_i32_be; unfold i32; lia). erewrite bind_ok by (apply rd_i32_be; exact H2).
  erewrite bind_ok by (apply rd_i8_be; exact H3). erewrite bind_ok by (exact (rd_u_be 4 crc _)). erewrite bind_ok by (apply rd_i16_be; exact H4).
  erewrite bind_ok by (apply rd_i32_be; exact H5). erewrite bind_ok by (apply rd_i64_be; exact H6). erewrite bind_ok by (apply rd_i64_be; exact H7).
  erewrite bind_ok by (apply rd_i64_be; exact H8). erewrite bind_ok by (apply rd_i16_be; exact H9). erewrite bind_ok by (apply rd_i32_be; exact H10).
  rewrite (sint_id 32) by (change (2 ^ (32 - 1)) with (2 ^ 31); lia).
  erewrite bind_ok by (apply rd_u32_be; unfold u32; lia). unfold zlen at 1. rewrite Nat2Z.id. unfold raw_of at 1. rewrite records_read by exact H12. reflexivity.
Qed.
Lemma batch_bytes_len b : zlen (batch_bytes b) = 61 + zlen (raw_of b).
Proof. unfold batch_bytes. rewrite !zlen_app, !zlen_be, tail_len. lia. Qed.
Lemma batches_read bs : forall fuel rest, Forall rbatch_ok bs -> (length bs <= fuel)%nat ->
  rd_batches fuel (zlen (flat_map batch_bytes bs)) (flat_map batch_bytes bs ++ rest) = Ok (map got_batch bs, rest).
Proof.
  induction bs as [|b bs IH]; intros fuel rest H Hf; [destruct fuel; reflexivity|]. inversion H as [|? ? Hb Hbs]; subst.
  cbn [flat_map map length] in *. destruct fuel as [|fuel]; [lia|]. cbn [rd_batches].
  pose proof (batch_bytes_len b). pose proof (zlen_nonneg (raw_of b)). pose proof (zlen_nonneg (flat_map batch_bytes bs)).
  rewrite zlen_app. destruct (Z.leb_spec (zlen (batch_bytes b) + zlen (flat_map batch_bytes bs)) 0); [lia|].
  rewrite <- app_assoc. rewrite (batch_read b _ Hb). rewrite !zlen_app.
  match goal with |- context [rd_batches fuel ?n] => replace n with (zlen (flat_map batch_bytes bs)) end.
  2:{ lia. }
  erewrite bind_ok by (apply IH; [exact Hbs|lia]). reflexivity.
Qed.
Lemma batches_len bs : 61 * zlen bs <= zlen (flat_map batch_bytes bs).
Proof.
  induction bs as [|b bs IH]; [unfold zlen; cbn; lia|]. cbn [flat_map]. rewrite zlen_app, zlen_cons, batch_bytes_len. pose proof (zlen_nonneg (raw_of b)). lia.
Qed.

(** ** Partitions, topics, requests *)
Notation ppart := (Z * list RecordBatch)%type.
Notation ptopic := (bytes * list ppart)%type.
Definition part_bytes (p : ppart) : bytes := flat_map batch_bytes (snd p).
Definition ppart_ok (p : ppart) : Prop := i32 (fst p) /\ Forall rbatch_ok (snd p) /\ zlen (part_bytes p) < 2 ^ 31 - 1.
Definition ptopic_ok (t : ptopic) : Prop := zlen (fst t) < 2 ^ 15 /\ zlen (snd t) < 2 ^ 31 - 1 /\ Forall ppart_ok (snd t).
Definition got_part (p : ppart) : dpart := (fst p, (zlen (part_bytes p), (map got_batch (snd p), []))).
Definition got_topic (t : ptopic) : dtopic := (fst t, (map got_part (snd t), [])).
Definition sent_topics (ts : list ptopic) : list (bytes * list (Z * bytes)) :=
  map (fun t : ptopic => (fst t, map (fun p : ppart => (fst p, part_bytes p)) (snd t))) ts.
Lemma sent_payloads zip ts : Forall ptopic_ok ts -> payloads zip ts (sent_topics ts).
Proof.
  intros H. unfold payloads, sent_topics. induction H as [|[n ps] ts (A & B & C) _ IH]; [constructor|]. constructor; [|exact IH]. cbn [fst snd] in *. split; [reflexivity|].
  clear - C. induction C as [|[i bs] ps (A & B & D) _ IH]; [constructor|]. constructor; [|exact IH]. cbn [fst snd] in *. split; [reflexivity|].
  exists (map batch_bytes bs). split; [|unfold part_bytes; rewrite flat_map_concat_map; reflexivity].
  clear - B. induction B as [|b bs Hb _ IH]; [constructor|]. constructor; [|exact IH]. apply batch_sent. exact Hb.
Qed.
Lemma fuel_ok bs rest : (length bs <= length (flat_map batch_bytes bs ++ rest))%nat.
Proof. pose proof (batches_len bs). unfold zlen in *. rewrite app_length. lia. Qed.
Lemma part_read_9 p rest : ppart_ok p ->
  rd_pr_part true (enc (TI32 *** TCNBytes *** TTags) (fst p, (Some (part_bytes p), [])) ++ rest) = Ok (got_part p, rest).
Proof.
  intros (A & B & C). unfold rd_pr_part. pose proof (zlen_nonneg (part_bytes p)). spread. st.
  change (enc TCNBytes (Some (part_bytes p))) with (uvarint (zlen (part_bytes p) + 1) ++ part_bytes p). rewrite <- app_assoc.
  erewrite bind_ok by (apply compactArrayLength_wire; lia).
  erewrite bind_ok by (apply batches_read; [exact B|apply fuel_ok]). erewrite bind_ok by (apply decodeTaggedFields_wire; exact no_tags). reflexivity.
Qed.
Lemma part_read_3 p rest : ppart_ok p ->
  rd_pr_part false (enc (TI32 *** TNBytes) (fst p, Some (part_bytes p)) ++ rest) = Ok (got_part p, rest).
Proof.
  intros (A & B & C). unfold rd_pr_part. pose proof (zlen_nonneg (part_bytes p)). spread. st.
  change (enc TNBytes (Some (part_bytes p))) with (be 4 (zlen (part_bytes p)) ++ part_bytes p). rewrite <- app_assoc.
  erewrite bind_ok by (apply rd_i32_be; unfold i32; lia).
  erewrite bind_ok by (apply batches_read; [exact B|apply fuel_ok]). reflexivity.
Qed.
Lemma parr_in {A B} (flex : bool) t (p : parser B) (f : A -> den t) (g : A -> B) (l : list A) r :
  (forall x r, In x l -> p (enc t (f x) ++ r) = Ok (g x, r)) -> zlen l < 2 ^ 31 - 1 ->
  rd_parr flex p (arr_enc flex t (map f l) ++ r) = Ok (map g l, r).
Proof.
  intros H Hl. pose proof (zlen_nonneg l).
  assert (N : forall r, rd_n (Z.to_nat (zlen l)) p (flat_map (enc t) (map f l) ++ r) = Ok (map g l, r)).
  { intros r'. rewrite flat_map_map. unfold zlen. rewrite Nat2Z.id. apply (rd_n_map p (fun x => enc t (f x)) g l r'). exact H. }
  unfold rd_parr, arr_enc. destruct flex; cbn [enc]; rewrite zlen_map, <- app_assoc.
  - erewrite bind_ok by (apply compactArrayLength_wire; lia). unfold rd_make. destruct (Z.ltb_spec (zlen l) 0); [lia|]. apply N.
  - erewrite bind_ok by (apply rd_u32_be; unfold u32; lia). unfold rd_make. destruct (Z.ltb_spec (zlen l) 0); [lia|]. apply N.
Qed.
Notation L9p := (TI32 *** TCNBytes *** TTags).
Notation L9t := (TCStr *** TCArr L9p *** TTags).
Notation L3t := (TStr *** TArr (TI32 *** TNBytes)).
Definition v9t (t : ptopic) : den L9t := (fst t, (map (fun p : ppart => (fst p, (Some (part_bytes p), []))) (snd t), [])).
Definition v3t (t : ptopic) : den L3t := (fst t, map (fun p : ppart => (fst p, Some (part_bytes p))) (snd t)).
Lemma topic_read_9 t rest : ptopic_ok t -> rd_pr_topic true (enc L9t (v9t t) ++ rest) = Ok (got_topic t, rest).
Proof.
  intros (A & B & C). rewrite Forall_forall in C. unfold rd_pr_topic, v9t. spread. st.
  erewrite bind_ok by (apply (parr_in true L9p (rd_pr_part true) (fun p : ppart => (fst p, (Some (part_bytes p), []))) got_part); [intros; apply part_read_9; auto|exact B]).
  erewrite bind_ok by (apply decodeTaggedFields_wire; exact no_tags). reflexivity.
Qed.
Lemma topic_read_3 t rest : ptopic_ok t -> rd_pr_topic false (enc L3t (v3t t) ++ rest) = Ok (got_topic t, rest).
Proof.
  intros (A & B & C). rewrite Forall_forall in C. unfold rd_pr_topic, v3t. spread. st.
  erewrite bind_ok by (apply (parr_in false (TI32 *** TNBytes) (rd_pr_part false) (fun p : ppart => (fst p, Some (part_bytes p))) got_part); [intros; apply part_read_3; auto|exact B]).
  reflexivity.
Qed.
Lemma produce_flex v : flexibleb 0 v = (9 <=? v).
Proof. unfold flexibleb, flexible_from. cbn [existsb fst snd Z.eqb Pos.eqb andb orb]. apply orb_false_r. Qed.
Lemma produce_rt zip corr client txn acks timeout ts v : 0 <= v < 2 ^ 16 -> u32 corr -> wf_client client ->
  wf TNStr txn -> i16 acks -> i32 timeout -> zlen ts < 2 ^ 31 - 1 -> Forall ptopic_ok ts ->
  reads_back zip corr v client (QProduce txn acks timeout ts) decodeProduce
    ((sent_header client (QProduce txn acks timeout ts) v corr, []), (txn, (acks, (timeout, (map got_topic ts, []))))).
Proof.
  intros Hv Hc Hcl H1 H2 H3 Hl Ht. set (b := QProduce txn acks timeout ts). pose proof (sent_hdr_ok b v corr client Hv Hc Hcl) as Hh.
  apply nstr_cnstr in H1 as H1'. pose proof (sent_payloads zip ts Ht) as Hp.
  assert (Hf : flex_of b v = (9 <=? v)) by (unfold flex_of; apply produce_flex). rewrite Hf in Hh.
  assert (Hhd : read_header (9 <=? v) 0 v corr client = sent_header client b v corr) by (unfold read_header, sent_header; rewrite ?keys; change (api_key b) with 0; rewrite produce_flex; reflexivity).
  rewrite <- Hhd. pose proof Ht as Ht'. rewrite Forall_forall in Ht'. change (api_key b) with 0 in *. destruct (9 <=? v) eqn:E9.
  - assert (Hw : wf S_Produce_9 (produce_value_9 txn acks timeout (sent_topics ts))).
    { unfold produce_value_9, sent_topics. split; [exact H1'|]. split; [exact H2|]. split; [exact H3|]. split; [|exact no_tags]. cbn [fst snd].
      split; [rewrite map_map, zlen_map; exact Hl|]. rewrite map_map, Forall_map. eapply Forall_impl; [|exact Ht]. intros [n ps] (A & B & C). cbn [fst snd] in *.
      split; [exact A|]. split; [|exact no_tags]. cbn [fst snd]. split; [rewrite map_map, zlen_map; exact B|]. rewrite map_map, Forall_map. eapply Forall_impl; [|exact C].
      intros [i bs] (D & E & F). cbn [fst snd] in *. split; [exact D|]. split; [exact F|exact no_tags]. }
    eexists. split.
    + apply (prepared zip corr client b v (enc S_Produce_9 (produce_value_9 txn acks timeout (sent_topics ts)))); [lia|]. rewrite Hf. cbn [encode_body b].
      apply enc_produce_9; assumption.
    + rewrite Hf. intros Hz. unfold decodeProduce, sent. eapply (whole32_ok _ _ _ []); [apply size_of; exact Hz|].
      rewrite hdr_step by exact Hh. cbv beta iota. unfold h_version, read_header. cbn [h_hv h_ver]. change (flexible 2) with true. cbv beta iota zeta.
      rewrite <- (app_nil_r (enc S_Produce_9 _)). unfold S_Produce_9, produce_value_9. spread. do 3 st.
      assert (Es : map (fun t : bytes * list (Z * bytes) => (fst t, (map (fun p : Z * bytes => (fst p, (Some (snd p), @nil (Z * bytes)))) (snd t), @nil (Z * bytes)))) (sent_topics ts) = map v9t ts).
      { unfold sent_topics. rewrite map_map. apply map_ext. intros [n ps]. unfold v9t. cbn [fst snd]. rewrite map_map. reflexivity. }
      assert (Ep : forall r, rd_parr true (rd_pr_topic true) (enc (TCArr L9t) (map v9t ts) ++ r) = Ok (map got_topic ts, r)).
      { intros r. apply (parr_in true L9t (rd_pr_topic true) v9t got_topic); [|exact Hl]. intros x r' Hx. apply topic_read_9. exact (Ht' x Hx). }
      rewrite <- Es in Ep. erewrite bind_ok by apply Ep.
      erewrite bind_ok by (apply decodeTaggedFields_wire; exact no_tags). reflexivity.
  - eexists. split.
    + apply (prepared zip corr client b v (enc S_Produce_3 (produce_value_3 txn acks timeout (sent_topics ts)))); [lia|]. rewrite Hf. cbn [encode_body b].
      apply enc_produce_3; assumption.
    + rewrite Hf. intros Hz. unfold decodeProduce, sent. eapply (whole32_ok _ _ _ []); [apply size_of; exact Hz|].
      rewrite hdr_step by exact Hh. cbv beta iota. unfold h_version, read_header. cbn [h_hv h_ver]. change (flexible 1) with false. cbv beta iota zeta.
      rewrite <- (app_nil_r (enc S_Produce_3 _)). unfold S_Produce_3, S_Produce_0, produce_value_3. spread. do 3 st.
      assert (Es : map (fun t : bytes * list (Z * bytes) => (fst t, map (fun p : Z * bytes => (fst p, Some (snd p))) (snd t))) (sent_topics ts) = map v3t ts).
      { unfold sent_topics. rewrite map_map. apply map_ext. intros [n ps]. unfold v3t. cbn [fst snd]. rewrite map_map. reflexivity. }
      assert (Ep : forall r, rd_parr false (rd_pr_topic false) (enc (TArr L3t) (map v3t ts) ++ r) = Ok (map got_topic ts, r)).
      { intros r. apply (parr_in false L3t (rd_pr_topic false) v3t got_topic); [|exact Hl]. intros x r' Hx. apply topic_read_3. exact (Ht' x Hx). }
      rewrite <- Es in Ep. erewrite bind_ok by apply Ep.
      reflexivity.
Qed.

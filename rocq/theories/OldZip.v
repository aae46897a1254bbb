(** Message sets of magic 0 and 1 with compressed messages: what such a message holds, and what
    the decoder makes of it. *)
From Verif Require Import Base BaseFacts Wire WireFacts Prims PrimsFacts RecordSpec Records Fetch FetchOld RequestFacts Responses RespEncode RespEncodeSpec RespEncodeFacts MsgSet.

(** *** Specification (https://kafka.apache.org/documentation/#recordbatch, "Old Message Format")
    The value of a message with a codec (gzip 1, snappy 2, lz4 3) is a compressed message set.
    With magic 0 its messages have their offsets; with magic 1 theirs are relative, and the
    offset of the compressed message is that of the last one. *)
Definition wf_packed (m : smsg) : Prop :=
  i64 (sm_offset m) /\ (sm_magic m = 0 \/ sm_magic m = 1) /\ i8 (sm_attr m) /\ 1 <= Z.land (sm_attr m) 7 <= 3 /\
  0 <= sm_ts m < 2 ^ 64 /\ (match sm_key m with None => True | Some b => zlen b < 2 ^ 31 end) /\
  (match sm_value m with None => True | Some b => zlen b < 2 ^ 31 end) /\ sm_size m < 2 ^ 31.
Definition move (d : Z) (m : smsg) : smsg := mkSM (sm_offset m + d) (sm_magic m) (sm_attr m) (sm_ts m) (sm_key m) (sm_value m).
Definition unpacked (m : smsg) (inner : list smsg) : list smsg :=
  if sm_magic m =? 1 then map (move (sm_offset m - last (map sm_offset inner) 0)) inner else inner.

Section Packed.
  Variable zip : Z -> bytes -> res bytes.
  Lemma packed_parsed m r : wf_packed m -> msg_parser (enc_smsg m ++ r) = Ok (exp_smsg m, r).
  Proof.
    intros [Ho [Hm [Ha [Hc [Ht [Hk [Hv Hs]]]]]]].
    assert (R : rt (rcat [Ok (be 8 (sm_offset m)); Ok (be 4 (sm_size m)); Ok (be 4 (crc32 (sm_body m))); Ok (be 1 (sm_magic m)); Ok (be 1 (sm_attr m));
       Ok (if sm_magic m =? 1 then be 8 (sm_ts m) else []); Ok (enc_nbytes (sm_key m)); Ok (enc_nbytes (sm_value m))]) msg_parser (exp_smsg m)).
    { unfold msg_parser. eapply rt_cons; [apply rt_ok; intros s; apply rd_i64_be; exact Ho|].
      pose proof (sm_body_len m). eapply rt_cons; [apply rt_i32; unfold i32, sm_size in *; lia|].
      eapply rt_cons with (a := unbe (be 4 (crc32 (sm_body m)))); [apply rt_ok; intros s; reflexivity|].
      eapply rt_cons; [apply rt_ok; intros s; apply rd_i8_be; unfold i8; destruct Hm as [-> | ->]; lia|].
      eapply rt_cons; [apply rt_ok; intros s; apply rd_i8_be; exact Ha|].
      eapply rt_cons with (a := if sm_magic m =? 1 then sm_ts m else 0).
      { destruct (sm_magic m =? 1); [|apply rt_none]. apply rt_ok. intros s. apply rd_u64_be. exact Ht. }
      cbv beta. apply rt_nbytes; [exact Hk|]. apply rt_nbytes; [exact Hv|]. apply rt_nil. }
    cbn [rcat rbind] in R. rewrite <- (rt_bytes _ _ _ R r).
    f_equal. unfold enc_smsg. rewrite app_nil_r, <- !app_assoc. unfold sm_body at 2. rewrite <- !app_assoc. reflexivity.
  Qed.
  Lemma land_3_7 a : 1 <= Z.land a 7 <= 3 -> Z.land a 3 = Z.land a 7.
  Proof.
    intros H. replace (Z.land a 3) with (Z.land (Z.land a 7) 3) by (rewrite <- Z.land_assoc; reflexivity).
    set (x := Z.land a 7) in *. assert (C : x = 1 \/ x = 2 \/ x = 3) by lia. destruct C as [-> |[-> | ->]]; reflexivity.
  Qed.
  Lemma packed_decoded f m r : wf_packed m ->
    decodeToMessageSet zip (S f) (enc_smsg m ++ r) =
    rbind (zip (Z.land (sm_attr m) 7) (obytes (sm_value m))) (fun b =>
    rbind (decodeToMessageSet zip f b) (fun ims => rbind (decodeToMessageSet zip f r) (fun ms => Ok (ims ++ ms)))).
  Proof.
    intros W. pose proof (packed_parsed m r W) as P. destruct (smsg_cons m) as (x & xs & E). rewrite E in P |- *.
    cbn [app decodeToMessageSet] in *. unfold msg_parser in P. rewrite P. cbn [exp_smsg m_attr m_value].
    destruct W as (_ & _ & _ & Hc & _). unfold decompress. rewrite land_3_7 by exact Hc.
    destruct (Z.eqb_spec (Z.land (sm_attr m) 7) 0) as [Z0|Z0]; [lia|]. reflexivity.
  Qed.
  Lemma packed_read m inner f : wf_packed m -> Forall wf_smsg inner -> (length inner <= f)%nat ->
    zip (Z.land (sm_attr m) 7) (obytes (sm_value m)) = Ok (flat_map enc_smsg inner) ->
    decodeToMessageSet zip (S f) (enc_smsg m) = Ok (map exp_smsg inner).
  Proof.
    intros W I L Z. rewrite <- (app_nil_r (enc_smsg m)), packed_decoded, Z by exact W. cbn [rbind].
    rewrite msgs_decoded by assumption. cbn [rbind]. destruct f; cbn; rewrite app_nil_r; reflexivity.
  Qed.
End Packed.

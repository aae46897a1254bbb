(** Message sets: what MessageSet.Encode writes, DecodeToMessageSet reads back. *)
From Verif Require Import Base BaseFacts Wire WireFacts Prims PrimsFacts RecordSpec Records Fetch FetchOld RequestFacts Responses RespEncode RespEncodeSpec RespEncodeFacts.

Definition sm_of (m : Message) : smsg := mkSM (m_offset m) (m_magic m) (m_attr m) (m_ts m) (m_key m) (Some (obytes (m_value m))).
(** a message set holds the messages one after the other, in the format of the protocol *)
Lemma ms_body_wire m : ms_body m = sm_body (sm_of m).
Proof.
  unfold ms_body, sm_body, sm_of, enc_nbytes. cbn [sm_magic sm_attr sm_ts sm_key sm_value].
  rewrite be4_uint. destruct (m_key m) as [k|]; rewrite ?be4_uint; reflexivity.
Qed.
Lemma ms_body_len m : 4 + zlen (ms_body m) = 14 + zlen (obytes (m_key m)) + zlen (obytes (m_value m)) + (if m_magic m =? 1 then 8 else 0).
Proof.
  unfold ms_body. rewrite !zlen_app, !zlen_be.
  assert (Hk : zlen match m_key m with Some k => be 4 (uint 32 (zlen k)) ++ k | None => be 4 4294967295 end = 4 + zlen (obytes (m_key m))).
  { destruct (m_key m) as [k|]; cbn [obytes]; rewrite ?zlen_app, zlen_be; change (zlen (@nil Z)) with 0; lia. }
  rewrite Hk. destruct (m_magic m =? 1); rewrite ?zlen_be; change (zlen (@nil Z)) with 0; lia.
Qed.
Lemma ms_message_wire m : ms_message m = enc_smsg (sm_of m).
Proof.
  unfold ms_message, enc_smsg. rewrite be4_uint, ms_body_wire. unfold sm_size. rewrite <- ms_body_wire.
  rewrite <- ms_body_len. reflexivity.
Qed.
Lemma ms_message_len m : zlen (ms_message m) = 26 + zlen (obytes (m_key m)) + zlen (obytes (m_value m)) + (if m_magic m =? 1 then 8 else 0).
Proof. unfold ms_message. rewrite !zlen_app, !zlen_be. pose proof (ms_body_len m). lia. Qed.
Lemma ms_length_exact ms : zlen (flat_map ms_message ms) = ms_length ms.
Proof.
  induction ms as [|m ms IH]; [reflexivity|]. cbn [flat_map ms_length fold_right]. rewrite zlen_app, IH, ms_message_len. unfold ms_length. lia.
Qed.
Theorem ms_encode_exact ms : ms_encode (ms_length ms) ms = Ok (flat_map (fun m => enc_smsg (sm_of m)) ms).
Proof.
  unfold ms_encode. assert (E : wcat (map (fun m => Put (ms_message m)) ms) = flat_map ms_message ms).
  { induction ms as [|m ms IH]; [reflexivity|]. cbn [map flat_map]. rewrite wcat_cons, IH. reflexivity. }
  rewrite wfull_exact by (rewrite E; apply ms_length_exact). rewrite E. f_equal. apply flat_map_ext. exact ms_message_wire.
Qed.

Section Msgs.
  Variable zip : Z -> bytes -> res bytes.
  Definition msg_parser : parser Message :=
    off <- rd_i64 ;; size <- rd_i32 ;; crc <- rd_u32 ;; magic <- rd_i8 ;; attr <- rd_i8 ;;
    ts <- (if magic =? 1 then rd_u64 else ret 0) ;;
    kl <- rd_i32 ;;
    k <- (if kl =? -1 then ret None else (b <- rd_bytes kl ;; ret (Some b))) ;;
    vl <- rd_i32 ;;
    v <- (if vl =? -1 then ret None else (b <- rd_bytes vl ;; ret (Some b))) ;;
    ret (mkMsg off magic attr ts k v []).
  Lemma rt_bytes {A} b (p : parser A) a : rt (Ok b) p a -> forall r, p (b ++ r) = Ok (a, r).
  Proof. intros (b' & E & H). injection E as <-. exact H. Qed.
  Lemma rt_nbytes {B} o rest (k : option bytes -> parser B) c : (match o with None => True | Some b => zlen b < 2 ^ 31 end) ->
    rt (rcat rest) (k o) c ->
    rt (rcat (Ok (enc_nbytes o) :: rest)) (kl <- rd_i32 ;; x <- (if kl =? -1 then ret None else (b <- rd_bytes kl ;; ret (Some b))) ;; k x) c.
  Proof.
    intros H Hk. eapply rt_eq with (p := x <- (kl <- rd_i32 ;; (if kl =? -1 then ret None else (b <- rd_bytes kl ;; ret (Some b)))) ;; k x).
    - eapply rt_cons; [|exact Hk]. apply rt_ok. intros r. apply rd_nbytes_enc. exact H.
    - intros s. unfold bind. destruct (rd_i32 s) as [[kl s']| | |]; reflexivity.
  Qed.
  Lemma msg_parsed m r : wf_smsg m -> msg_parser (enc_smsg m ++ r) = Ok (exp_smsg m, r).
  Proof.
    intros [Ho [Hm [Ha [Hc [Ht [Hk [Hv Hs]]]]]]].
    assert (R : rt (rcat [Ok (be 8 (sm_offset m)); Ok (be 4 (sm_size m)); Ok (be 4 (crc32 (sm_body m))); Ok (be 1 (sm_magic m)); Ok (be 1 (sm_attr m));
       Ok (if sm_magic m =? 1 then be 8 (sm_ts m) else []); Ok (enc_nbytes (sm_key m)); Ok (enc_nbytes (sm_value m))]) msg_parser (exp_smsg m)).
    { unfold msg_parser. eapply rt_cons; [apply rt_ok; intros s; apply rd_i64_be; exact Ho|].
      pose proof (sm_body_len m). eapply rt_cons; [apply rt_i32; unfold i32, sm_size in *; lia|].
      eapply rt_cons with (a := unbe (be 4 (crc32 (sm_body m)))); [apply rt_ok; intros s; reflexivity|].
      eapply rt_cons; [apply rt_ok; intros s; apply rd_i8_be; unfold i8; destruct Hm as [-> | ->]; lia|].
      eapply rt_cons; [apply rt_ok; intros s; apply rd_i8_be; exact Ha|].
      eapply rt_cons with (a := if sm_magic m =? 1 then sm_ts m else 0).
      { destruct (sm_magic m =? 1); [|apply rt_none]. apply rt_ok. intros s. apply rd_u64_be. exact Ht. }
      cbv beta. apply rt_nbytes; [exact Hk|]. apply rt_nbytes; [exact Hv|]. apply rt_nil. }
    cbn [rcat rbind] in R. rewrite <- (rt_bytes _ _ _ R r).
    f_equal. unfold enc_smsg. rewrite app_nil_r, <- !app_assoc. unfold sm_body at 2. rewrite <- !app_assoc. reflexivity.
  Qed.
  Lemma smsg_cons m : exists x xs, enc_smsg m = x :: xs.
  Proof.
    pose proof (enc_smsg_len m) as HL. unfold sm_size in HL. pose proof (sm_body_len m).
    destruct (enc_smsg m) as [|x xs]; [rewrite zlen_nil in HL; lia|]. eexists _, _; reflexivity.
  Qed.
  Lemma msgs_decoded ms : forall fuel, (length ms <= fuel)%nat -> Forall wf_smsg ms ->
    decodeToMessageSet zip fuel (flat_map enc_smsg ms) = Ok (map exp_smsg ms).
  Proof.
    induction ms as [|m ms IH]; intros fuel Hf H; [destruct fuel; reflexivity|]. inversion H as [|? ? Hm Hms]; subst.
    destruct fuel as [|f]; [cbn [length] in Hf; lia|]. cbn [flat_map map].
    pose proof (msg_parsed m (flat_map enc_smsg ms) Hm) as P. destruct (smsg_cons m) as (x & xs & E). rewrite E in P |- *.
    cbn [app decodeToMessageSet] in *. unfold msg_parser in P. rewrite P. cbn [exp_smsg m_attr].
    destruct Hm as [_ [_ [_ [Hc _]]]]. rewrite Hc. cbn [Z.eqb]. rewrite IH by (cbn [length] in Hf; try lia; assumption). reflexivity.
  Qed.
  Lemma plain_wf m : plain_message m -> wf_smsg (sm_of m).
  Proof.
    intros (H1 & H2 & H3 & H4 & H5 & _ & H6 & H7 & H8). unfold wf_smsg, sm_of. cbn [sm_offset sm_magic sm_attr sm_ts sm_key sm_value].
    repeat split; try assumption; try apply H1; try apply H3.
    - destruct (m_magic m =? 1); [apply H5|rewrite H5; lia].
    - destruct (m_magic m =? 1); [apply H5|rewrite H5; reflexivity].
    - destruct (m_value m); cbn [obytes]; [assumption|reflexivity].
    - change (4 + zlen (sm_body (sm_of m)) < 2 ^ 31). rewrite <- ms_body_wire, ms_body_len. destruct (m_magic m =? 1); lia.
  Qed.
  Definition value_present (m : Message) : Message :=
    mkMsg (m_offset m) (m_magic m) (m_attr m) (m_ts m) (m_key m) (Some (obytes (m_value m))) (m_headers m).
  Theorem msgset_read fuel ms : Forall plain_message ms -> (length ms <= fuel)%nat ->
    exists b, ms_encode (ms_length ms) ms = Ok b /\ zlen b = ms_length ms /\ decodeToMessageSet zip fuel b = Ok (map value_present ms).
  Proof.
    intros H Hf. exists (flat_map (fun m => enc_smsg (sm_of m)) ms). split; [apply ms_encode_exact|]. split.
    - rewrite <- ms_length_exact. f_equal. apply flat_map_ext. intros m. symmetry. apply ms_message_wire.
    - rewrite <- (flat_map_map enc_smsg sm_of ms). rewrite msgs_decoded; [|rewrite map_length; exact Hf|].
      + f_equal. rewrite map_map. apply map_ext_in. intros m Hin. rewrite Forall_forall in H. destruct (H m Hin) as (_ & _ & _ & _ & Ht & Hh & _).
        unfold exp_smsg, sm_of, value_present. cbn [sm_offset sm_magic sm_attr sm_ts sm_key sm_value]. rewrite Hh. destruct (m_magic m =? 1); [reflexivity|]. rewrite Ht. reflexivity.
      + apply Forall_map. eapply Forall_impl; [|exact H]. exact plain_wf.
  Qed.
End Msgs.

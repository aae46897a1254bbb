(** C128: compressed messages of the old formats are unpacked. *)
From Verif Require Import Base BaseFacts RecordSpec Records Fetch FetchOld MsgSet OldZip.

(** The bytes of the value go through the function [zip] of the codec, which is the compressor
    (message.go:47), and the result is read as messages: nothing decompresses. *)
Theorem C128_compressed_again : forall zip f m r, wf_packed m ->
  decodeToMessageSet zip (S f) (enc_smsg m ++ r) =
  rbind (zip (Z.land (sm_attr m) 7) (obytes (sm_value m))) (fun b =>
  rbind (decodeToMessageSet zip f b) (fun ims => rbind (decodeToMessageSet zip f r) (fun ms => Ok (ims ++ ms)))).
Proof. exact packed_decoded. Qed.
Print Assumptions C128_compressed_again.

(** "The messages in a compressed message are handed out": refuted, with a codec that puts the two
    bytes all gzip files begin with in front. *)
Definition ex_zip (c : Z) (b : bytes) : res bytes := Ok ([31; 139] ++ b).
Definition ex_unzip (c : Z) (b : bytes) : res bytes := match b with 31 :: 139 :: b' => Ok b' | _ => Err EEOF end.
Definition ex_inner : list smsg := [mkSM 40 0 0 0 None (Some [97]); mkSM 41 0 0 0 None (Some [98])].
Definition ex_packed : smsg := mkSM 41 0 1 0 None (Some ([31; 139] ++ flat_map enc_smsg ex_inner)).
Theorem C128_packed_refuted : exists zip unzip m inner, (forall c b, rbind (zip c b) (unzip c) = Ok b) /\
  wf_packed m /\ Forall wf_smsg inner /\ zip (Z.land (sm_attr m) 7) (flat_map enc_smsg inner) = Ok (obytes (sm_value m)) /\
  forall f, decodeToMessageSet zip f (enc_smsg m) <> Ok (map exp_smsg (unpacked m inner)).
Proof.
  exists ex_zip, ex_unzip, ex_packed, ex_inner. split; [reflexivity|].
  split; [unfold wf_packed, i64, i8; cbn; repeat split; try lia; left; reflexivity|].
  split; [repeat (apply Forall_cons; [unfold wf_smsg, i64, i8; cbn; repeat split; try lia; left; reflexivity|]); apply Forall_nil|].
  split; [vm_compute; reflexivity|]. intros [|f]; [vm_compute; discriminate|].
  rewrite <- (app_nil_r (enc_smsg ex_packed)), packed_decoded by (unfold wf_packed, i64, i8; cbn; repeat split; try lia; left; reflexivity).
  destruct f as [|f]; vm_compute; discriminate.
Qed.
Print Assumptions C128_packed_refuted.

(** Were the function the decompressor, messages with magic 0 would come out right ... *)
Theorem C128_magic0_partial : forall zip m inner f, sm_magic m = 0 -> wf_packed m -> Forall wf_smsg inner -> (length inner <= f)%nat ->
  zip (Z.land (sm_attr m) 7) (obytes (sm_value m)) = Ok (flat_map enc_smsg inner) ->
  decodeToMessageSet zip (S f) (enc_smsg m) = Ok (map exp_smsg (unpacked m inner)).
Proof. intros zip m inner f M W I L Z. unfold unpacked. rewrite M. cbn [Z.eqb]. apply packed_read; assumption. Qed.
Print Assumptions C128_magic0_partial.
Example C128_magic0_ex : wf_packed ex_packed /\ ex_unzip (Z.land (sm_attr ex_packed) 7) (obytes (sm_value ex_packed)) = Ok (flat_map enc_smsg ex_inner) /\
  decodeToMessageSet ex_unzip 3 (enc_smsg ex_packed) = Ok (map exp_smsg ex_inner).
Proof. split; [unfold wf_packed, i64, i8; cbn; repeat split; try lia; left; reflexivity|]. split; vm_compute; reflexivity. Qed.

(** ... but not those with magic 1: the relative offsets are taken for offsets.  Three messages at
    offsets 40 to 42 come out at 0 to 2, which a consumer that asked for 40 throws away. *)
Theorem C128_relative_refuted : exists zip m inner, sm_magic m = 1 /\ wf_packed m /\ Forall wf_smsg inner /\
  zip (Z.land (sm_attr m) 7) (obytes (sm_value m)) = Ok (flat_map enc_smsg inner) /\
  map sm_offset (unpacked m inner) = [40; 41; 42] /\
  exists ms, decodeToMessageSet zip 4 (enc_smsg m) = Ok ms /\ map m_offset ms = [0; 1; 2].
Proof.
  set (inner := [mkSM 0 1 0 7 None (Some [97]); mkSM 1 1 0 7 None (Some [98]); mkSM 2 1 0 7 None (Some [99])]).
  exists ex_unzip, (mkSM 42 1 2 7 None (Some ([31; 139] ++ flat_map enc_smsg inner))), inner.
  assert (W : wf_packed (mkSM 42 1 2 7 None (Some ([31; 139] ++ flat_map enc_smsg inner)))) by (unfold wf_packed, i64, i8; cbn; repeat split; try lia; right; reflexivity).
  assert (I : Forall wf_smsg inner) by (repeat (apply Forall_cons; [unfold wf_smsg, i64, i8; cbn; repeat split; try lia; right; reflexivity|]); apply Forall_nil).
  split; [reflexivity|]. split; [exact W|]. split; [exact I|]. split; [reflexivity|]. split; [reflexivity|].
  eexists. split; [apply packed_read with (inner := inner); [exact W|exact I|cbn; lia|reflexivity]|reflexivity].
Qed.
Print Assumptions C128_relative_refuted.

(** C148: damaged batches. *)
From Verif Require Import Base BaseFacts RecordSpec Records RecordFacts Fetch FetchSpec FetchFacts FetchOld FetchKeep FetchGrow FetchRefute Damage.

(** Full statement: of a batch (or an old message) whose checksum is not that of its
    bytes, nothing is delivered; an error is reported instead.  It is false: no checksum
    is ever compared.  Vocabulary: Damage.v ([stamped c w]: the bytes of the batch [w] with
    [c] in place of its checksum; [intact]: the checksum is the right one) and FetchSpec.v. *)

(** Finding: whatever checksums the batches carry, in versions 0, 7 and 10 and however
    the bytes arrive, exactly the records that would be delivered with the right checksums
    are. *)
Theorem C148_any_checksum_refuted : forall unzip zip v st p ms rest chunks fin,
  (v = 0 \/ v = 7 \/ v = 10) -> wf_presp p -> ms <> [] -> Forall (wf_wb unzip) (map snd ms) ->
  pr_records p = flat_map (fun m => stamped (fst m) (snd m)) ms ->
  concat chunks = enc_presp v p ++ rest ->
  fields_ok chunks (length (enc_presp_head v p)) (part_fields v p) ->
  exists s', streamDecode unzip zip v st (zlen (enc_presp v p)) (mkStream chunks fin) =
      Ok (let evs := exp_all (pr_topic p) (pr_pid p) st (map snd ms) in
          if nonempty evs then evs else [EvErr EMaxBytesTooSmall], s') /\
    concat (st_chunks (d_in s')) = rest.
Proof. exact any_checksum. Qed.
Print Assumptions C148_any_checksum_refuted.

(** Old messages likewise: for every sequence of bytes, well-formed or not, the four bytes
    of the checksum make no difference. *)
Theorem C148_old_checksum_refuted : forall zip f (a c c' t : bytes), zlen a = 12 -> zlen c = 4 -> zlen c' = 4 ->
  decodeToMessageSet zip f (a ++ c ++ t) = decodeToMessageSet zip f (a ++ c' ++ t).
Proof. exact old_any_checksum. Qed.
Print Assumptions C148_old_checksum_refuted.

(** One byte of a value changed on its way (or on the broker's disk): the changed value is
    delivered. *)
Definition good : wbatch := mkWB (hdr 7 0 1) [rec 0 [107] [49; 48; 48]] (flat_map enc_srecord [rec 0 [107] [49; 48; 48]]).
Definition flip (n : nat) (x : Z) (b : bytes) : bytes := firstn n b ++ [x] ++ skipn (S n) b.
Theorem C148_damaged_refuted : exists w n x v v',
  wf_wb err0 w /\ intact (enc_wb w) /\ ~ intact (flip n x (enc_wb w)) /\ v <> v' /\
  forall b, b = enc_wb w \/ b = flip n x (enc_wb w) ->
  exists s', streamDecode err0 err0 10 0 (zlen (enc_presp 10 (resp b))) (mkStream [enc_presp 10 (resp b)] ETimeout) =
    Ok ([EvMsg [116] 3 (mkMsg 7 2 0 1000 (Some [107]) (Some (if beqb b (enc_wb w) then v else v')) [])], s').
Proof.
  exists good, 68%nat, 57, [49; 48; 48], [57; 48; 48]. split; [wf|]. split; [vm_compute; reflexivity|].
  split; [apply beqb_false; vm_compute; reflexivity|]. split; [discriminate|].
  intros b [->| ->]; eexists; vm_compute; reflexivity.
Qed.
Print Assumptions C148_damaged_refuted.
Theorem C148_damaged_old_refuted : exists m n x v v',
  wf_smsg m /\ intact_old (enc_smsg m) /\ ~ intact_old (flip n x (enc_smsg m)) /\ v <> v' /\
  forall b, b = enc_smsg m \/ b = flip n x (enc_smsg m) ->
  exists s', streamDecode err0 err0 10 0 (zlen (enc_presp 10 (resp b))) (mkStream [enc_presp 10 (resp b)] ETimeout) =
    Ok ([EvMsg [116] 3 (mkMsg 7 1 0 5 None (Some (if beqb b (enc_smsg m) then v else v')) [])], s').
Proof.
  exists (old_msg 7 [49; 48; 48]), 34%nat, 57, [49; 48; 48], [57; 48; 48]. split; [wf|]. split; [vm_compute; reflexivity|].
  split; [apply beqb_false; vm_compute; reflexivity|]. split; [discriminate|].
  intros b [->| ->]; eexists; vm_compute; reflexivity.
Qed.
Print Assumptions C148_damaged_old_refuted.

(** What does hold.  Damage the decompressor notices: of a compressed batch at the end that
    the decompressor rejects, nothing is delivered; what precedes it is, and if nothing
    does, the error is reported. *)
Theorem C148_rejected_partial : forall unzip zip v st p ms c w rest chunks fin e,
  (v = 0 \/ v = 7 \/ v = 10) -> wf_presp p -> Forall (wf_wb unzip) (map snd ms) ->
  wf_wb_common w -> wb_recs w <> [] -> wb_codec w <> 0 -> unzip (wb_codec w) (wb_payload w) = Err e ->
  pr_records p = flat_map (fun m => stamped (fst m) (snd m)) ms ++ stamped c w ->
  concat chunks = enc_presp v p ++ rest ->
  fields_ok chunks (length (enc_presp_head v p)) (part_fields v p) ->
  exists s', streamDecode unzip zip v st (zlen (enc_presp v p)) (mkStream chunks fin) =
      Ok (let evs := exp_all (pr_topic p) (pr_pid p) st (map snd ms) in
          if nonempty evs then evs else [EvErr (if is_eof e then EMaxBytesTooSmall else EWrap e)], s') /\
    concat (st_chunks (d_in s')) = rest.
Proof. exact rejected_last. Qed.
Print Assumptions C148_rejected_partial.

(** Damage to the fields nobody reads: if only the leader epoch, the checksum, the last
    offset delta, the latest timestamp, the producer's id and epoch, the sequence number, or
    the attributes other than the codec differ, the same is delivered. *)
Definition same_read (w w' : wbatch) : Prop :=
  sb_base (wb_h w) = sb_base (wb_h w') /\ sb_bts (wb_h w) = sb_bts (wb_h w') /\
  wb_recs w = wb_recs w' /\ wb_payload w = wb_payload w'.
Lemma same_exp t pid st ws ws' : Forall2 same_read ws ws' -> exp_all t pid st ws = exp_all t pid st ws'.
Proof.
  induction 1 as [|w w' ws ws' [H1 [H2 [H3 H4]]] HF IH]; [reflexivity|]. unfold exp_all in *. cbn [flat_map]. rewrite IH. f_equal.
  unfold exp_events. rewrite H3. do 2 f_equal. apply map_ext. intros r. unfold exp_msg. rewrite H1, H2. reflexivity.
Qed.
Theorem C148_unread_partial : forall unzip zip v st p p' ms ms' rest chunks chunks' fin fin' evs s,
  (v = 0 \/ v = 7 \/ v = 10) -> wf_presp p -> wf_presp p' -> pr_topic p = pr_topic p' -> pr_pid p = pr_pid p' ->
  ms <> [] -> Forall (wf_wb unzip) (map snd ms) -> Forall (wf_wb unzip) (map snd ms') ->
  Forall2 same_read (map snd ms) (map snd ms') ->
  pr_records p = flat_map (fun m => stamped (fst m) (snd m)) ms ->
  pr_records p' = flat_map (fun m => stamped (fst m) (snd m)) ms' ->
  concat chunks = enc_presp v p ++ rest -> concat chunks' = enc_presp v p' ++ rest ->
  fields_ok chunks (length (enc_presp_head v p)) (part_fields v p) ->
  fields_ok chunks' (length (enc_presp_head v p')) (part_fields v p') ->
  streamDecode unzip zip v st (zlen (enc_presp v p)) (mkStream chunks fin) = Ok (evs, s) ->
  exists s', streamDecode unzip zip v st (zlen (enc_presp v p')) (mkStream chunks' fin') = Ok (evs, s').
Proof.
  intros unzip zip v st p p' ms ms' rest chunks chunks' fin fin' evs s Hv W W' Ht Hp Hne H1 H2 HF R R' C C' F F' D.
  destruct (any_checksum unzip zip v st p ms rest chunks fin Hv W Hne H1 R C F) as [s1 [E1 _]].
  assert (Hne' : ms' <> []) by (destruct ms, ms'; cbn in HF; inversion HF; congruence).
  destruct (any_checksum unzip zip v st p' ms' rest chunks' fin' Hv W' Hne' H2 R' C' F') as [s2 [E2 _]].
  exists s2. rewrite E2. rewrite E1 in D. injection D as <- _.
  rewrite <- Ht, <- Hp, (same_exp _ _ _ _ _ HF). reflexivity.
Qed.
Print Assumptions C148_unread_partial.

(** two batches, both with wrong checksums, cut between two reads: delivered; the second
    compressed and rejected: the first is delivered *)
Definition packed : wbatch := mkWB (hdr 8 1 1) [rec 0 [108] [50]] [31; 139; 8].
Example C148_ex :
  (exists s', let p := resp (stamped 0 good ++ stamped 77 good) in
     streamDecode err0 err0 10 0 (zlen (enc_presp 10 p)) (mkStream [firstn 90 (enc_presp 10 p); skipn 90 (enc_presp 10 p)] ETimeout) =
     Ok ([EvMsg [116] 3 (mkMsg 7 2 0 1000 (Some [107]) (Some [49; 48; 48]) []);
          EvMsg [116] 3 (mkMsg 7 2 0 1000 (Some [107]) (Some [49; 48; 48]) [])], s')) /\
  (exists s', let p := resp (stamped 0 good ++ enc_wb packed) in
     streamDecode err0 err0 10 0 (zlen (enc_presp 10 p)) (mkStream [enc_presp 10 p] ETimeout) =
     Ok ([EvMsg [116] 3 (mkMsg 7 2 0 1000 (Some [107]) (Some [49; 48; 48]) [])], s')) /\
  (exists s', let p := resp (enc_wb packed) in
     streamDecode (fun _ _ => Err (EKafka 2)) err0 10 0 (zlen (enc_presp 10 p)) (mkStream [enc_presp 10 p] ETimeout) =
     Ok ([EvErr (EWrap (EKafka 2))], s')).
Proof. split; [|split]; eexists; vm_compute; reflexivity. Qed.

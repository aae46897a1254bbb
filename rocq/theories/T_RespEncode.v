(** C93-C95: what the response encoders write, the response decoders read. *)
From Verif Require Import Base BaseFacts Wire Prims RecordSpec Records RecordFacts Fetch FetchSpec Responses RespEncode RespEncodeSpec RespEncodeFacts RespEncodeBuf MsgSet FetchEncode.

(** Vocabulary (RespEncodeSpec.v): [carried v r]: the response fits the fields of version v;
    [read_back enc dec r]: r is encoded without a panic, and decoding what was written gives
    r again, nil slices being taken for empty ones. *)

(** *** C93 *)
Theorem C93_alter_reassignments : forall r, (exists c h t e m ts g, r = RAlterReassignments c h t e m ts g) -> carried 0 r ->
  read_back enc_alterreassignments dec_alterreassignments r.
Proof. exact alterreassignments_rt. Qed.
Print Assumptions C93_alter_reassignments.
Theorem C93_delete_acls : forall v r, (exists c h t rs g, r = RDeleteAcls c h t rs g) -> carried v r ->
  exists w, enc_deleteacls v r = Ok w /\ (zlen w < 2 ^ 31 -> dec_deleteacls v w = Ok r).
Proof. exact deleteacls_rt. Qed.
Print Assumptions C93_delete_acls.
Theorem C93_describe_acls : forall v r, (exists c t e m rs g, r = RDescribeAcls c t e m rs g) -> carried v r ->
  read_back (enc_describeacls v) (dec_describeacls v) r.
Proof. exact describeacls_rt. Qed.
Print Assumptions C93_describe_acls.
Theorem C93_list_groups : forall v r, (exists c h t e gs g, r = RListGroups c h t e gs g) -> carried v r ->
  read_back (enc_listgroups v) (dec_listgroups v) r.
Proof. exact listgroups_rt. Qed.
Print Assumptions C93_list_groups.
(** CreateAcls is read back when no result and no response has tags and, before version 2,
    at least two of the results have messages (each makes up for two of the four bytes the
    length forgets). *)
Theorem C93_create_acls_partial : forall v c h rs, carried v (RCreateAcls c h rs []) -> zlen (elements rs) < 2 ^ 28 - 1 ->
  (2 <= v \/ 2 <= messages (elements rs)) -> Forall (fun r : Z * (option bytes * taggedFields) => snd (snd r) = []) (elements rs) ->
  read_back (enc_createacls v) (dec_createacls v) (RCreateAcls c h rs []).
Proof. exact createacls_rt. Qed.
Print Assumptions C93_create_acls_partial.

(** closes [carried] for a concrete response *)
Ltac fits :=
  repeat match goal with
  | |- _ /\ _ => split
  | |- Forall _ [] => exact (Forall_nil _)
  | |- Forall _ (_ :: _) => apply Forall_cons
  | |- True => exact I
  | |- _ \/ _ => first [left; vm_compute; reflexivity | right; vm_compute; reflexivity]
  | |- _ <= _ => vm_compute; first [reflexivity | discriminate]
  | |- _ < _ => vm_compute; reflexivity
  | |- _ = _ => vm_compute; reflexivity
  | |- _ => progress (cbv -[Z.lt Z.le Z.pow zlen])
  end.
Definition ex_ar : response := RAlterReassignments 7 [(1, [2; 3])] 100 (-1) (Some [101]) (Some [([116], ([(3, (0, (None, []))); (-1, (35, (Some [120; 121], [(0, [])])))], []))]) [].
Example C93_ex_ar : carried 0 ex_ar /\ exists w, enc_alterreassignments ex_ar = Ok w /\ dec_alterreassignments w = Ok ex_ar /\ zlen w = 47.
Proof. split; [fits|]. eexists; split; [vm_compute; reflexivity|]. split; vm_compute; reflexivity. Qed.
Definition ex_del (v : Z) : response :=
  RDeleteAcls 7 [] 100 [(0, (None, ([(0, (Some [101], (2, ([116], ((if 1 <=? v then 4 else 0), ([117], ([42], (3, (255, [])))))))))], [(9, [1])])))] [].
Example C93_ex_del : carried 0 (ex_del 0) /\ carried 2 (ex_del 2) /\
  exists w, enc_deleteacls 0 (ex_del 0) = Ok w /\ dec_deleteacls 0 w = Ok (ex_del 0) /\
  exists w', enc_deleteacls 2 (ex_del 2) = Ok w' /\ dec_deleteacls 2 w' = Ok (ex_del 2).
Proof.
  split; [fits|]. split; [fits|]. eexists. split; [vm_compute; reflexivity|]. split; [vm_compute; reflexivity|]. eexists. split; [vm_compute; reflexivity|]. vm_compute; reflexivity.
Qed.
Definition ex_des : response := RDescribeAcls 7 0 0 None (Some [(2, ([116], (3, ([([117], ([42], (3, (2, []))))], []))))]) [].
Example C93_ex_des : exists w, enc_describeacls 1 ex_des = Ok w /\ dec_describeacls 1 w = Ok ex_des /\
  exists w', enc_describeacls 2 ex_des = Ok w' /\ dec_describeacls 2 w' = Ok ex_des /\ zlen w' < zlen w.
Proof. eexists; split; [vm_compute; reflexivity|]. split; [vm_compute; reflexivity|]. eexists; split; [vm_compute; reflexivity|]. split; vm_compute; reflexivity. Qed.
Example C93_ex_lg : exists w, enc_listgroups 4 (RListGroups 7 [] 5 0 (Some [([103], ([99], ([83], ([], []))))]) []) = Ok w /\
  dec_listgroups 4 w = Ok (RListGroups 7 [] 5 0 (Some [([103], ([99], ([83], ([], []))))]) []).
Proof. eexists; split; [vm_compute; reflexivity|]. vm_compute; reflexivity. Qed.
Example C93_ex_ca : exists w, enc_createacls 1 (RCreateAcls 7 [] (Some [(1, (Some [120], [])); (0, (None, [])); (2, (Some [], []))]) []) = Ok w /\
  dec_createacls 1 w = Ok (RCreateAcls 7 [] (Some [(1, (Some [120], [])); (0, (None, [])); (2, (Some [], []))]) []).
Proof. eexists; split; [vm_compute; reflexivity|]. vm_compute; reflexivity. Qed.

(** Findings.  Before version 2 the encoder of CreateAcls panics on every response without
    messages, in particular on the one that says that all went well; with one message it
    writes bytes its decoder panics on.  From version 2 on the tags of the results are
    replaced by those of the response, and those do not fit the buffer. *)
Theorem C93_create_acls_panics_refuted : forall v c h rs tags, v < 2 ->
  Forall (fun r : Z * (option bytes * taggedFields) => fst (snd r) = None) (elements rs) ->
  enc_createacls v (RCreateAcls c h rs tags) = Panic.
Proof. exact createacls_old_panics. Qed.
Print Assumptions C93_create_acls_panics_refuted.
Theorem C93_create_acls_refuted : exists r1 r2 r3,
  (carried 1 r1 /\ exists w, enc_createacls 1 r1 = Ok w /\ zlen w < 2 ^ 31 /\ dec_createacls 1 w = Panic) /\
  (carried 2 r2 /\ exists w r', enc_createacls 2 r2 = Ok w /\ dec_createacls 2 w = Ok r' /\ ~ same r2 r') /\
  (carried 2 r3 /\ enc_createacls 2 r3 = Panic).
Proof.
  exists (RCreateAcls 7 [] (Some [(58, (Some [120; 121], []))]) []), (RCreateAcls 7 [] (Some [(0, (None, [(1, [2])]))]) []),
    (RCreateAcls 7 [] (Some [(0, (None, [])); (0, (None, []))]) [(1, [2; 3; 4; 5; 6; 7; 8; 9])]).
  split; [|split].
  - split; [fits|]. eexists. split; [vm_compute; reflexivity|]. split; vm_compute; reflexivity.
  - split; [fits|]. eexists. eexists. split; [vm_compute; reflexivity|].
    split; [vm_compute; reflexivity|]. intros [_ H]. vm_compute in H. discriminate.
  - split; [fits|]. vm_compute. reflexivity.
Qed.
Print Assumptions C93_create_acls_refuted.

(** *** C94 *)
(** MessageSet.Length is the exact size, and the bytes are those of the protocol; read back
    they are the same messages, but that a message without a value has an empty one. *)
Theorem C94_message_set_partial : forall zip fuel ms, Forall plain_message ms -> (length ms <= fuel)%nat ->
  exists b, ms_encode (ms_length ms) ms = Ok b /\ zlen b = ms_length ms /\ decodeToMessageSet zip fuel b = Ok (map value_present ms).
Proof. exact msgset_read. Qed.
Print Assumptions C94_message_set_partial.
Theorem C94_message_format : forall ms,
  ms_encode (ms_length ms) ms = Ok (flat_map (fun m => FetchOld.enc_smsg (sm_of m)) ms).
Proof. exact ms_encode_exact. Qed.
Print Assumptions C94_message_format.
Definition ex_msgs : list Message := [mkMsg 7 0 0 0 (Some [107]) (Some [118; 119]) []; mkMsg 8 1 0 1000 None (Some []) []].
Example C94_ex : Forall plain_message ex_msgs /\
  exists b, ms_encode (ms_length ex_msgs) ex_msgs = Ok b /\ zlen b = 63 /\ decodeToMessageSet (fun _ _ => Panic) 3 b = Ok ex_msgs.
Proof.
  split; [fits|]. eexists; split; [vm_compute; reflexivity|]. split; vm_compute; reflexivity.
Qed.
Theorem C94_absent_value_refuted : exists m b, plain_message m /\ m_value m = None /\ ms_encode (ms_length [m]) [m] = Ok b /\
  forall zip, exists m', decodeToMessageSet zip 2 b = Ok [m'] /\ m_value m' = Some [].
Proof.
  exists (mkMsg 8 1 0 1000 (Some [107]) None []). eexists. split; [fits|]. split; [reflexivity|]. split; [vm_compute; reflexivity|].
  intros zip. eexists. split; vm_compute; reflexivity.
Qed.
Print Assumptions C94_absent_value_refuted.

(** *** C95 *)
(** A fetch response with one partition, encoded, delivers its records in versions 7 and
    10, all of them, in order, for every codec whose decompressor undoes its compressor. *)
Theorem C95_fetch_response_partial : forall unzip zip v start corr throttle session topic part out fin,
  v = 7 \/ v = 10 -> fp_ec part = 0 -> zlen topic < 2 ^ 15 -> i32 (fp_pid part) -> zlen (fp_aborted part) < 2 ^ 31 ->
  Forall (good_batch unzip zip start) (fp_batches part) ->
  enc_fetchresp zip (mkFR corr throttle 0 session [(topic, [part])]) = Ok out -> zlen out < 2 ^ 31 ->
  exists s', streamDecode unzip zip v start (zlen out) (mkStream [out] fin) = Ok (flat_map (batch_events topic (fp_pid part)) (fp_batches part), s') /\
    concat (st_chunks (d_in s')) = [].
Proof. exact fetchresp_read. Qed.
Print Assumptions C95_fetch_response_partial.
Definition ex_b (base : Z) : RecordBatch :=
  mkRB base 0 2 0 1 1000 1000 (-1) 0 0 [mkRec 0 5 0 (Some [107]) (Some [118]) [([104], [1; 2])]; mkRec 0 6 1 None (Some [120]) []].
Definition ex_fr : FetchResp := mkFR 1 0 0 0 [([116], [mkPartR 3 0 100 100 0 [(1, 2)] [ex_b 7; ex_b 9]])].
Definition nz0 (c : Z) (b : bytes) : res bytes := Panic.
Example C95_ex : exists out s', enc_fetchresp nz0 ex_fr = Ok out /\
  streamDecode nz0 nz0 10 0 (zlen out) (mkStream [out] EEOF) =
    Ok ([EvMsg [116] 3 (mkMsg 7 2 0 1005 (Some [107]) (Some [118]) [([104], [1; 2])]); EvMsg [116] 3 (mkMsg 8 2 0 1006 None (Some [120]) []);
         EvMsg [116] 3 (mkMsg 9 2 0 1005 (Some [107]) (Some [118]) [([104], [1; 2])]); EvMsg [116] 3 (mkMsg 10 2 0 1006 None (Some [120]) [])], s').
Proof. eexists. eexists. split; [vm_compute; reflexivity|]. vm_compute; reflexivity. Qed.
(** The encoder ignores the version; what it writes for version 0 is no version 0 response:
    the consumer gets none of the records. *)
Theorem C95_version_0_refuted : exists r out evs s', enc_fetchresp nz0 r = Ok out /\
  streamDecode nz0 nz0 0 0 (zlen out) (mkStream [out] EEOF) = Ok (evs, s') /\ Forall (fun e => match e with EvMsg _ _ _ => False | EvErr _ => True end) evs.
Proof. exists ex_fr. eexists. eexists. eexists. split; [vm_compute; reflexivity|]. split; [vm_compute; reflexivity|]. repeat constructor. Qed.
Print Assumptions C95_version_0_refuted.

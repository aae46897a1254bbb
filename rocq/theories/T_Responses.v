(** C21-C26: decoding of responses, error reporting, corrupt responses. *)
From Verif Require Import Base BaseFacts Wire WireFacts Prims Group Assign RequestSpec Responses ResponseSpec ResponseFacts ResponseDecode ResponseDecode2 ResponseDecode3 ResponseDecode4 ResponseRefute.
Local Open Scope ty_scope.

(** *** C21 *)
(** [response_spec] (ResponseSpec.v) gives for each API and version the layout of the
    protocol, the values the client should show, the error codes in the response and the
    limits of the statement.  A response without error code is returned by RequestAndGet
    with exactly the transmitted fields. *)
Theorem C21_responses_partial : forall key v sp corr ht (x : den (s_ty sp)),
  response_spec key v = Some sp -> u32 corr -> wf TTags ht -> (rflexible key v = false -> ht = []) ->
  wf (s_ty sp) x -> s_ok sp ht x -> zlen (response_bytes key v corr ht (enc (s_ty sp) x)) < 2 ^ 31 ->
  Forall (fun c => c = 0) (s_codes sp x) ->
  exists r, answer key v (response_bytes key v corr ht (enc (s_ty sp) x)) = Ok r /\ s_shown sp corr ht x r.
Proof.
  exact (fun key v sp corr ht x H Hc Ht Hf Hw Hok Hs => proj1 (answer_table key v sp H corr ht x Hc Ht Hf Hw Hok Hs)).
Qed.
Print Assumptions C21_responses_partial.
Definition ex_join : den R_JoinGroup_0 := (0, (3, ([114], ([109; 49], ([109; 49], [([109; 49], [0; 0]); ([109; 50], [])]))))).
Example C21_ex_join : answer 11 0 (response_bytes 11 0 9 [] (enc R_JoinGroup_0 ex_join)) =
  Ok (RJoinGroup 9 0 3 [114] [109; 49] [109; 49] [([109; 49], [0; 0]); ([109; 50], [])]).
Proof. vm_compute. reflexivity. Qed.
Definition ex_groups_5 : den R_ListGroups_5 := (7, (0, ([([103], ([99], ([83], ([116], []))))], []))).
Example C21_ex_groups : answer 16 5 (response_bytes 16 5 9 [(1, [2])] (enc R_ListGroups_5 ex_groups_5)) =
  Ok (RListGroups 9 [(1, [2])] 7 0 (Some [([103], ([99], ([83], ([116], []))))]) []).
Proof. vm_compute. reflexivity. Qed.
(** Findings: valid responses on which the client crashes, or which it misreads. *)
Theorem C21_produce_0_refuted : exists x : den R_Produce_0, wf R_Produce_0 x /\
  answer 0 0 (response_bytes 0 0 7 [] (enc R_Produce_0 x)) = Panic.
Proof. exact (ex_intro _ _ produce0_ex). Qed.
Print Assumptions C21_produce_0_refuted.
Theorem C21_alter_configs_success_refuted : exists x : den R_Configs_0, wf R_Configs_0 x /\
  answer 33 0 (response_bytes 33 0 7 [] (enc R_Configs_0 x)) = Panic.
Proof. exact (ex_intro _ _ alterconfigs_ex). Qed.
Print Assumptions C21_alter_configs_success_refuted.
Theorem C21_offset_fetch_null_metadata_refuted : exists x : den R_OffsetFetch_0, wf R_OffsetFetch_0 x /\
  answer 9 1 (response_bytes 9 1 7 [] (enc R_OffsetFetch_0 x)) = Panic.
Proof. exact (ex_intro _ _ offsetfetch_ex). Qed.
Print Assumptions C21_offset_fetch_null_metadata_refuted.
Theorem C21_describe_acls_1_refuted : exists x : den R_DescribeAcls_1, x = (0, (0, (None, []))) /\ wf R_DescribeAcls_1 x /\
  answer 29 1 (response_bytes 29 1 7 [] (enc R_DescribeAcls_1 x)) <> Ok (RDescribeAcls 7 0 0 None (Some []) []).
Proof. exact (ex_intro _ ex_describeacls_1 (conj eq_refl describeacls1_ex)). Qed.
Print Assumptions C21_describe_acls_1_refuted.
(** A group with a member that has no assignment yet makes the whole call fail, though the
    broker reported no error. *)
Theorem C21_describe_rebalancing_group_refuted : exists x : den R_DescribeGroups_0, wf R_DescribeGroups_0 x /\ Forall (fun c => c = 0) (map fst x) /\
  exists e, answer 15 0 (response_bytes 15 0 7 [] (enc R_DescribeGroups_0 x)) = Err e /\ err_code e = None.
Proof. exact (ex_intro _ ex_rebalancing (conj (proj1 describegroups_ex) (conj (Forall_cons _ eq_refl (Forall_nil _)) (proj2 describegroups_ex)))). Qed.
Print Assumptions C21_describe_rebalancing_group_refuted.
(** The metadata of a group member are never shown. *)
Theorem C21_member_metadata_refuted : forall s m e r, rd_member s = Ok ((m, e), r) -> fst (snd (snd (snd m))) = [].
Proof. exact member_metadata_lost. Qed.
Print Assumptions C21_member_metadata_refuted.

(** *** C22 *)
(** The id shown begins with the two bytes of the length of the id, whatever the id. *)
Theorem C22_cluster_id_refuted : exists cl r, wf R_Metadata_4 (ex_metadata (Some cl)) /\
  answer 3 4 (response_bytes 3 4 7 [] (enc R_Metadata_4 (ex_metadata (Some cl)))) = Ok r /\
  r = RMetadata 7 0 [(1, ([104], (9092, [])))] [0; 4; 65; 66] 1 [] /\ cl = [65; 66; 67; 68].
Proof. exact cluster_wrong. Qed.
Print Assumptions C22_cluster_id_refuted.
Theorem C22_cluster_id_read_early : forall cl r, zlen cl < 2 ^ 15 ->
  exists s, rd_cluster (enc TNStr (Some cl) ++ r) = Ok (firstn (length cl) (be 2 (zlen cl) ++ cl), s) /\ s = r.
Proof. exact cluster_bytes. Qed.
Print Assumptions C22_cluster_id_read_early.
Theorem C22_null_cluster_id_refuted : exists x : den R_Metadata_4, fst (snd (snd x)) = None /\ wf R_Metadata_4 x /\
  answer 3 4 (response_bytes 3 4 7 [] (enc R_Metadata_4 x)) = Panic.
Proof. exact (ex_intro _ (ex_metadata None) (conj eq_refl cluster_null)). Qed.
Print Assumptions C22_null_cluster_id_refuted.

(** *** C23 *)
Theorem C23_metadata_1 : forall corr (bs : list (den R_Broker)) ctl (ts : list (Z * (bytes * (bool * list (den R_Part_1))))), u32 corr -> wf R_Metadata_1 (bs, (ctl, ts)) ->
  zlen (response_bytes 3 1 corr [] (enc R_Metadata_1 (bs, (ctl, ts)))) < 2 ^ 31 -> Forall (fun c => c = 0) (meta_codes fst ts) ->
  exists r, answer 3 1 (response_bytes 3 1 corr [] (enc R_Metadata_1 (bs, (ctl, ts)))) = Ok r /\
  exists ts', presented_topics (map (v_topic v_part_1) ts) ts' /\ r = RMetadata corr 0 (map v_broker bs) [] ctl ts'.
Proof. exact (fun corr bs ctl ts Hc Hw Hs => proj1 (h_metadata_1 corr [] (bs, (ctl, ts)) Hc (wfb_ok TTags [] eq_refl) (fun _ => eq_refl) Hw I Hs)). Qed.
Print Assumptions C23_metadata_1.
Theorem C23_metadata_7 : forall corr th (bs : list (den R_Broker)) cl ctl (ts : list (Z * (bytes * (bool * list (den R_Part_7))))), u32 corr -> wf R_Metadata_7 (th, (bs, (Some cl, (ctl, ts)))) ->
  zlen (response_bytes 3 7 corr [] (enc R_Metadata_7 (th, (bs, (Some cl, (ctl, ts)))))) < 2 ^ 31 -> Forall (fun c => c = 0) (meta_codes fst ts) ->
  exists r, answer 3 7 (response_bytes 3 7 corr [] (enc R_Metadata_7 (th, (bs, (Some cl, (ctl, ts)))))) = Ok r /\
  exists ts' c, presented_topics (map (v_topic (fun p => p)) ts) ts' /\ r = RMetadata corr th (map v_broker bs) c ctl ts'.
Proof.
  exact (fun corr th bs cl ctl ts Hc Hw Hs => proj1 (h_metadata_7 corr [] (th, (bs, (Some cl, (ctl, ts)))) Hc (wfb_ok TTags [] eq_refl) (fun _ => eq_refl) Hw
    (fun E => eq_ind (Some cl) (fun o => match o with Some _ => True | None => False end) I None E) Hs)).
Qed.
Print Assumptions C23_metadata_7.
Definition ex_topics : den R_Metadata_1 :=
  ([], (1, [(0, ([98], (false, [(0, (1, (5, ([5], [5])))); (0, (0, (6, ([6; 5], [6]))))]))); (0, ([97], (true, [])))])).
Example C23_ex : answer 3 1 (response_bytes 3 1 9 [] (enc R_Metadata_1 ex_topics)) =
  Ok (RMetadata 9 0 [] [] 1 [(0, ([97], (true, [])));
                             (0, ([98], (false, [(0, (0, (6, (0, ([6; 5], ([6], [])))))); (0, (1, (5, (0, ([5], ([5], []))))))])))]).
Proof. vm_compute. reflexivity. Qed.

(** *** C24 *)
(** If a response carries a non-zero error code, at whatever position, RequestAndGet returns
    an error carrying a non-zero code of the response. *)
Theorem C24_errors_partial : forall key v sp corr ht (x : den (s_ty sp)),
  response_spec key v = Some sp -> u32 corr -> wf TTags ht -> (rflexible key v = false -> ht = []) ->
  wf (s_ty sp) x -> s_ok sp ht x -> zlen (response_bytes key v corr ht (enc (s_ty sp) x)) < 2 ^ 31 ->
  Exists (fun c => c <> 0) (s_codes sp x) ->
  exists e c, answer key v (response_bytes key v corr ht (enc (s_ty sp) x)) = Err e /\ err_code e = Some c /\ In c (s_codes sp x) /\ c <> 0.
Proof.
  exact (fun key v sp corr ht x H Hc Ht Hf Hw Hok Hs => proj2 (answer_table key v sp H corr ht x Hc Ht Hf Hw Hok Hs)).
Qed.
Print Assumptions C24_errors_partial.
Example C24_ex : answer 8 2 (response_bytes 8 2 9 [] (enc R_OffsetCommit_0 [([116], [(0, 0); (1, 16)])])) = Err (EWrap (EKafka 16)).
Proof. vm_compute. reflexivity. Qed.
Example C24_ex_topic : answer 20 0 (response_bytes 20 0 9 [] (enc R_Topics_0 [([116], 0); ([117], 3)])) = Err (EUnknownCode 3).
Proof. vm_compute. reflexivity. Qed.
(** Findings.  A SASL handshake never fails: *)
Theorem C24_sasl_handshake_refuted : forall v ec (ms : list bytes) corr, rflexible 17 v = false -> wf R_SaslHandshake_0 (ec, ms) -> zlen ms < 2 ^ 16 -> u32 corr ->
  zlen (response_bytes 17 v corr [] (enc R_SaslHandshake_0 (ec, ms))) < 2 ^ 31 ->
  answer 17 v (response_bytes 17 v corr [] (enc R_SaslHandshake_0 (ec, ms))) = Ok (RSaslHandshake corr 0 ms).
Proof. exact sasl_lost. Qed.
Print Assumptions C24_sasl_handshake_refuted.
(** neither does listing groups: *)
Theorem C24_list_groups_refuted : exists x : den R_ListGroups_0, fst x = 15 /\ wf R_ListGroups_0 x /\
  exists r, answer 16 0 (response_bytes 16 0 7 [] (enc R_ListGroups_0 x)) = Ok r.
Proof. exact (ex_intro _ (15, []) (conj eq_refl listgroups_ex)). Qed.
Print Assumptions C24_list_groups_refuted.
(** errors of created ACLs are not seen: *)
Theorem C24_create_acls_0_refuted : exists x : den R_CreateAcls_0, map fst (snd x) = [31] /\ wf R_CreateAcls_0 x /\
  answer 30 0 (response_bytes 30 0 7 [] (enc R_CreateAcls_0 x)) = Ok (RCreateAcls 7 [] (Some []) []).
Proof. exact (ex_intro _ (0, [(31, Some [110; 111])]) (conj eq_refl createacls_ex)). Qed.
Print Assumptions C24_create_acls_0_refuted.
Theorem C24_create_acls_2_refuted : exists x : den R_CreateAcls_2, map fst (fst (snd x)) = [31] /\ wf R_CreateAcls_2 x /\
  answer 30 2 (response_bytes 30 2 7 [] (enc R_CreateAcls_2 x)) = Ok (RCreateAcls 7 [] None []).
Proof. exact (ex_intro _ ex_createacls_2 (conj eq_refl createacls2_ex)). Qed.
Print Assumptions C24_create_acls_2_refuted.
(** nor is the error of a listing of reassignments: *)
Theorem C24_list_reassignments_refuted : exists x : den R_ListReassignments_0, fst (snd x) = 41 /\ wf R_ListReassignments_0 x /\
  answer 46 0 (response_bytes 46 0 7 [] (enc R_ListReassignments_0 x)) = Ok (RListReassignments 7 0 0 None []).
Proof. exact (ex_intro _ ex_listreassign (conj eq_refl listreassign_ex)). Qed.
Print Assumptions C24_list_reassignments_refuted.
(** An error without message crashes three administrative calls. *)
Theorem C24_create_partitions_crash_refuted : exists x : den R_CreatePartitions_0, wf R_CreatePartitions_0 x /\
  answer 37 0 (response_bytes 37 0 7 [] (enc R_CreatePartitions_0 x)) = Panic.
Proof. exact (ex_intro _ _ createpartitions_ex). Qed.
Print Assumptions C24_create_partitions_crash_refuted.
Theorem C24_alter_reassignments_crash_refuted : exists x : den R_AlterReassignments_0, wf R_AlterReassignments_0 x /\
  answer 45 0 (response_bytes 45 0 7 [] (enc R_AlterReassignments_0 x)) = Panic.
Proof. exact (ex_intro _ _ alterreassign_ex). Qed.
Print Assumptions C24_alter_reassignments_crash_refuted.
Theorem C24_delete_acls_crash_refuted : exists x : den R_DeleteAcls_0, wf R_DeleteAcls_0 x /\
  answer 31 0 (response_bytes 31 0 7 [] (enc R_DeleteAcls_0 x)) = Panic.
Proof. exact (ex_intro _ _ deleteacls_ex). Qed.
Print Assumptions C24_delete_acls_crash_refuted.

(** *** C25 *)
(** An empty response crashes the client whatever the API. *)
Theorem C25_empty_response_refuted : forall key v, implemented key = true -> answer key v [0; 0; 0; 0] = Panic.
Proof. exact empty_panics. Qed.
Print Assumptions C25_empty_response_refuted.
(** A response whose length field is wrong is rejected (DescribeAcls does not look). *)
Theorem C25_wrong_length_partial : forall key v n s, implemented key = true -> key <> 29 -> u32 n -> zlen (be 4 n ++ s) < 2 ^ 31 -> n + 4 <> zlen (be 4 n ++ s) ->
  answer key v (be 4 n ++ s) = Err (EWrap ELength).
Proof. exact wrong_length. Qed.
Print Assumptions C25_wrong_length_partial.
Example C25_ex : answer 12 0 [0; 0; 0; 9; 0; 0; 0; 1; 0; 0] = Err (EWrap ELength).
Proof. vm_compute. reflexivity. Qed.
Theorem C25_unknown_api_partial : forall key v data, implemented key = false -> answer key v data = Err (EWrap ENotImplemented).
Proof. exact not_implemented. Qed.
Print Assumptions C25_unknown_api_partial.

(** *** C26 *)
(** Incremental changes of configurations: the client shows the result of the first
    resource for every resource. *)
Theorem C26_incremental_copies_refuted : forall corr th (rs : list (Z * (option bytes * (Z * bytes)))) a rest,
  rs = a :: rest -> u32 corr -> wf R_Configs_0 (th, rs) ->
  zlen (response_bytes 44 0 corr [] (enc R_Configs_0 (th, rs))) < 2 ^ 31 ->
  parse 44 0 (response_bytes 44 0 corr [] (enc R_Configs_0 (th, rs))) =
  Ok (RIncrementalAlterConfigs corr (as_u 32 th) (repeat (v_config a) (length rs))).
Proof. exact incremental_copies. Qed.
Print Assumptions C26_incremental_copies_refuted.
(** so that an error of the second is lost: *)
Theorem C26_incremental_lost_refuted : exists x : den R_Configs_0, map fst (snd x) = [0; 40] /\ wf R_Configs_0 x /\
  answer 44 0 (response_bytes 44 0 7 [] (enc R_Configs_0 x)) =
  Ok (RIncrementalAlterConfigs 7 0 [(0, ([], (2, [116; 49]))); (0, ([], (2, [116; 49])))]).
Proof. exact (ex_intro _ ex_incremental (conj eq_refl incremental_ex)). Qed.
Print Assumptions C26_incremental_lost_refuted.
(** the same of a produce response for two partitions: *)
Theorem C26_produce_partitions_refuted : exists x : den R_Produce_9, wf R_Produce_9 x /\
  (exists t p q g tags, x = ([(t, ([p; q], g))], tags) /\ fst q = 1 /\ fst (snd q) = 6) /\
  answer 0 9 (response_bytes 0 9 7 [] (enc R_Produce_9 x)) =
  Ok (RProduce 7 [([116], [(0, (0, (41, (-1, (0, ([], None)))))); (0, (0, (41, (-1, (0, ([], None))))))])]).
Proof.
  exact (ex_intro _ ex_produce_9 (conj (proj1 produce9_ex) (conj
    (ex_intro _ _ (ex_intro _ _ (ex_intro _ _ (ex_intro _ _ (ex_intro _ _ (conj eq_refl (conj eq_refl eq_refl))))))) (proj2 produce9_ex)))).
Qed.
Print Assumptions C26_produce_partitions_refuted.
(** two results of CreatePartitions crash the client: *)
Theorem C26_create_partitions_refuted : exists x : den R_CreatePartitions_0, zlen (snd x) = 2 /\ wf R_CreatePartitions_0 x /\
  answer 37 0 (response_bytes 37 0 7 [] (enc R_CreatePartitions_0 x)) = Panic.
Proof. exact (ex_intro _ ex_createpartitions2 (conj eq_refl createpartitions2_ex)). Qed.
Print Assumptions C26_create_partitions_refuted.
(** With one result everything is kept. *)
Theorem C26_single_produce_partial : handled 0 9 P_Produce_9.
Proof. exact h_produce_9. Qed.
Print Assumptions C26_single_produce_partial.
Theorem C26_single_incremental_partial : handled 44 0 P_IncrementalAlterConfigs.
Proof. exact h_incremental. Qed.
Print Assumptions C26_single_incremental_partial.
Example C26_ex : answer 44 0 (response_bytes 44 0 7 [] (enc R_Configs_0 (0, [(40, (Some [98], (2, [116; 50])))]))) = Err (EKafka 40).
Proof. vm_compute. reflexivity. Qed.

(** C21: what an answer with log directories says about its request is lost: the length of
    the answer is stored as the correlation id (describe_logdirs_response.go:98). *)
Definition ex_logdirs : den R_DescribeLogDirs_0 := (0, [(0, ([47; 100], [([116], [(0, (10, (20, false)))])]))]).
Theorem C21_logdirs_corr_refuted : exists x : den R_DescribeLogDirs_0, wf R_DescribeLogDirs_0 x /\
  exists n, answer 35 0 (response_bytes 35 0 7 [] (enc R_DescribeLogDirs_0 x)) = Ok (RDescribeLogDirs n (fst x) (snd x)) /\ n <> 7.
Proof. exists ex_logdirs. split; [repeat constructor; cbn; unfold i16, i32, i64; try lia|]. exists 50. split; [vm_compute; reflexivity|discriminate]. Qed.
Print Assumptions C21_logdirs_corr_refuted.

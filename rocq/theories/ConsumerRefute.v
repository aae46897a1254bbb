(** Counterexamples for partition consumers. *)
From Verif Require Import Base BaseFacts Wire RecordSpec Records RecordFacts Responses Fetch FetchSpec FetchFacts DeliverFacts FetchShort FetchRefute Consumer ConsumerSpec ConsumerFacts.

(** *** A response split inside the size of its record set *)
(** fourteen records, leader epoch 2; the first has no key and an empty value *)
Definition sr (i : nat) : srecord :=
  if Nat.eqb i 0 then mkSRec 0 0 0 None (Some []) [] else mkSRec 0 0 (Z.of_nat i) (Some [107]) (Some [1; 2; 3; 4; 5; 6; 7]) [].
Definition sw : wbatch :=
  mkWB (mkSBatch 1 2 0 13 1000 1000 5 0 1) (map sr (seq 0 14)) (flat_map enc_srecord (map sr (seq 0 14))).
Definition sp : presp := mkPR 1 0 0 [116] 3 100 100 0 (Some []) (enc_wb sw).
Definition cfg3 : ccfg := mkCC [116] 3 false false 0.

Lemma log_ok_plain unzip w : wf_wb unzip w -> wb_codec w = 0 -> StronglySorted before (log_msgs [w]) ->
  Forall (fun m => m_offset m < 2 ^ 63 - 1) (log_msgs [w]) -> log_ok unzip [w].
Proof. intros H1 H2 H3 H4. split; [apply Forall_cons; [exact H1|apply Forall_nil]|]. split; [apply Forall_cons; [left; exact H2|apply Forall_nil]|]. split; assumption. Qed.

Lemma sw_ok : log_ok err0 [sw].
Proof.
  apply log_ok_plain; [|reflexivity| |].
  - split; [|reflexivity]. split; [wf|]. split; [repeat constructor; wf|]. split; [repeat constructor; wf|]. split; [repeat constructor; wf|].
    split; [reflexivity|]. vm_compute. split; [reflexivity|discriminate].
  - repeat constructor.
  - repeat constructor.
Qed.

Lemma sp_ok : wf_presp sp.
Proof. repeat split; cbn; unfold i8, i16, i32, i64; try lia; repeat constructor; vm_compute; reflexivity. Qed.

Lemma split_out_of_order : exists L p a b evs s s' t,
  log_ok err0 L /\ wf_presp p /\ pr_records p = flat_map enc_wb L /\ enc_presp 10 p = a ++ b /\
  streamDecode err0 err0 10 1 (zlen (enc_presp 10 p)) (mkStream [a; b] ETimeout) = Ok (evs, s) /\
  crun cfg3 (cinit 1 false 1000) [OFetch (Ok evs); ONext (Err ETimeout) []; OAdvance] = Ok (s', t) /\
  ~ in_order [116] 3 (log_msgs L) 1 t /\ resets t = [] /\ c_off s' = 504403158265495553.
Proof.
  exists [sw], sp, (firstn 62 (enc_presp 10 sp)), (skipn 62 (enc_presp 10 sp)).
  do 4 eexists. split; [exact sw_ok|]. split; [exact sp_ok|]. split; [reflexivity|]. split; [symmetry; apply firstn_skipn|].
  split; [vm_compute; reflexivity|]. split; [vm_compute; reflexivity|]. split; [|split; reflexivity].
  intros [_ [_ [_ [H _]]]]. vm_compute in H. discriminate.
Qed.

(** *** Partition 1, split inside the partition id: out of range *)
Definition b7 : wbatch := mkWB (hdr 7 0 1) [rec 0 [107] [118]] (enc_srecord (rec 0 [107] [118])).
Definition p1 : presp := mkPR 1 0 0 [116] 1 100 100 0 None (enc_wb b7).
Lemma split_out_of_range : exists a b s,
  wf_presp p1 /\ enc_presp 10 p1 = a ++ b /\
  streamDecode err0 err0 10 7 (zlen (enc_presp 10 p1)) (mkStream [a; b] ETimeout) = Ok ([EvErr (EKafka 1)], s).
Proof.
  exists (firstn 27 (enc_presp 10 p1)), (skipn 27 (enc_presp 10 p1)). eexists.
  split; [repeat split; cbn; unfold i8, i16, i32, i64; try lia; repeat constructor; vm_compute; reflexivity|].
  split; [symmetry; apply firstn_skipn|]. vm_compute. reflexivity.
Qed.

(** *** Commits *)
(** a log of three messages and the response that holds it *)
Definition b567 : wbatch :=
  mkWB (hdr 5 0 3) [rec 0 [107] [1]; rec 1 [107] [2]; rec 2 [107] [3]] (flat_map enc_srecord [rec 0 [107] [1]; rec 1 [107] [2]; rec 2 [107] [3]]).
Definition m567 (o v : Z) : Message := mkMsg o 2 0 1000 (Some [107]) (Some [v]) [].
Definition evs567 : list event := [EvMsg [116] 3 (m567 5 1); EvMsg [116] 3 (m567 6 2); EvMsg [116] 3 (m567 7 3)].
Lemma b567_ok : log_ok err0 [b567].
Proof. apply log_ok_plain; [wf|reflexivity|repeat constructor|repeat constructor]. Qed.
Lemma honest567 : honest err0 err0 [116] 3 [b567] 5 (Ok evs567).
Proof.
  eapply (H_data _ _ _ _ _ _ 10 (resp (enc_wb b567)) [] [b567] [] 1000 [] [enc_presp 10 (resp (enc_wb b567))] ETimeout);
    [reflexivity|constructor|auto|wf|reflexivity|reflexivity|vm_compute; reflexivity|rewrite app_nil_r; apply app_nil_r| |vm_compute; reflexivity].
  apply fields_ok_one. vm_compute. lia.
Qed.
Definition cfgg : ccfg := mkCC [116] 3 true true 1.
Definition twice : list cop :=
  [OFetch (Ok evs567); ONext (Err ETimeout) []; OAdvance; OCommit; ONext (Err ETimeout) []; OAdvance; OCommit; OSent 1 true true; OSent 0 true true].
Lemma commits_go_back : exists L ops s' t, log_ok err0 L /\ honest_run err0 err0 cfgg L (cinit 5 false 1000) ops /\
  crun cfgg (cinit 5 false 1000) ops = Ok (s', t) /\ resets t = [] /\ commits t = [7; 6].
Proof.
  exists [b567], twice. do 2 eexists. split; [exact b567_ok|]. split.
  { eapply honest_cons; [vm_compute; reflexivity|exact honest567|]. do 8 (eapply honest_cons; [vm_compute; reflexivity|exact I|]). exact I. }
  split; [vm_compute; reflexivity|]. split; reflexivity.
Qed.

(** out of range, the lookup of the new position fails, and a commit follows *)
Definition cfgs : ccfg := mkCC [116] 3 true false 1.
Lemma negative_commit : exists ops s' t, crun cfgs (cinit 5 false 1000) ops = Ok (s', t) /\ commits t = [-1].
Proof.
  exists [OFetch (Ok [EvErr (EKafka 1)]); ONext (Err ETimeout) []; OCommit; OBuild 0; OSent 0 false true].
  do 2 eexists. split; reflexivity.
Qed.

(** *** Started from the beginning with a committed offset: a reset goes to the end *)
Definition offs (o : Z) : response := ROffsets 1 0 [([116], [(3, (0, ([], (0, o))))])].
Lemma committed_reset_end : exists leaders cs os pos from ops s' t,
  reaches_leader leaders /\ startOffset cfgs false (-2) leaders cs os = Done (pos, from) /\
  crun cfgs (cinit pos from 1000) ops = Ok (s', t) /\ resets t = [(-1, 99)].
Proof.
  exists [Some (mkLT (Ok 1) true true)], [Ok (ROffsetFetch 1 [([116], [(3, (42, ([], 0)))])])], [].
  do 2 eexists. exists [OFetch (Ok [EvErr (EKafka 1)]); ONext (Ok (offs 99)) []]. do 2 eexists.
  split; [reflexivity|]. split; [reflexivity|]. split; reflexivity.
Qed.

(** *** The connection after an error *)
Lemma error_before_drain : exists p chunks rest evs s, wf_presp p /\
  concat chunks = enc_presp_head 10 p ++ (enc_presp_part 10 6 p ++ pr_records p) ++ rest /\
  streamEmit err0 err0 10 5 (zlen (enc_presp_head 10 p ++ enc_presp_part 10 6 p ++ pr_records p)) (mkStream chunks ETimeout) = Ok (evs, s) /\
  evs = [EvErr (EKafka 6)] /\ concat (st_chunks (d_in s)) <> rest.
Proof.
  exists (resp (enc_wb b567)). eexists [_]. exists [1; 2; 3; 4]. do 2 eexists. split; [wf|].
  split; [cbn [concat]; rewrite app_nil_r; reflexivity|]. split; [vm_compute; reflexivity|]. split; [reflexivity|].
  vm_compute. discriminate.
Qed.
Lemma header_timeout_silent : exists p k s, wf_presp p /\ (0 < k < length (enc_presp 10 p))%nat /\
  streamDecode err0 err0 10 5 (zlen (enc_presp 10 p)) (mkStream [firstn k (enc_presp 10 p)] ETimeout) = Ok ([], s).
Proof.
  exists (resp (enc_wb b567)), 10%nat. eexists. split; [wf|]. split; [vm_compute; lia|]. vm_compute. reflexivity.
Qed.

(** *** Looking for the leader *)
Lemma leader_connect_crash : getLeaderBroker (mkLT (Ok 3) false false) = Panic.
Proof. reflexivity. Qed.
Lemma leader_retry t ts : (exists id, lt_find t = Ok id /\ (id = -1 \/ lt_conn t = true \/ lt_cached t = true)) \/ (exists e, lt_find t = Err e) ->
  (exists id, lt_find t = Ok id /\ id <> -1 /\ lt_conn t = true /\ leaderLoop (Some t :: ts) = Done tt) \/ leaderLoop (Some t :: ts) = leaderLoop ts.
Proof.
  intros [[id [Hf H]]|[e Hf]]; cbn [leaderLoop]; unfold getLeaderBroker; rewrite Hf; [|right; reflexivity].
  destruct (Z.eqb_spec id (-1)) as [->|Hid]; [right; reflexivity|].
  destruct (lt_conn t) eqn:Ec; [left; exists id; repeat split; assumption|].
  destruct H as [H|[H|H]]; [contradiction|discriminate|]. rewrite H. right; reflexivity.
Qed.

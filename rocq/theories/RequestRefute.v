(** Requests the client encodes wrongly. *)
From Verif Require Import Base BaseFacts Wire WireFacts Prims PrimsFacts Records Requests RequestSpec RequestFacts RequestBodies RequestFlex RequestPrep.

Definition noz (c : Z) (b : bytes) : res bytes := Ok b.

Lemma frame_inj a b : zlen a < 2 ^ 32 -> zlen b < 2 ^ 32 -> frame a = frame b -> a = b.
Proof. intros _ _ H. unfold frame in H. apply (f_equal (skipn 4)) in H. rewrite !skipn_app_exact in H by reflexivity. exact H. Qed.
Lemma frame_inj' a b : frame a = frame b -> a = b.
Proof. intros H. unfold frame in H. apply (f_equal (skipn 4)) in H. rewrite !skipn_app_exact in H by reflexivity. exact H. Qed.

(** Produce at version 0: the transactional id is in the way, whatever is sent *)
Lemma produce_0 zip corr client txn acks timeout ts ts' : payloads zip ts ts' ->
  exists out r, prepare zip corr 0 (new_request client (QProduce txn acks timeout ts)) = Ok (out, r) /\
    out <> request_bytes (QProduce txn acks timeout ts) 0 corr client (V S_Produce_0 (produce_value_0 acks timeout ts')).
Proof.
  intros Hp. eexists _, _. split; [apply (prepare_produce_3 _ _ _ _ _ _ _ _ 0 Hp); lia|].
  unfold request_bytes. intros H. apply frame_inj' in H. apply (f_equal zlen) in H. rewrite !zlen_app in H.
  unfold val_bytes, S_Produce_3, produce_value_3, produce_value_0, V in H. cbn [projT1 projT2] in H. rewrite (zs_pair TNStr S_Produce_0) in H.
  rewrite zs_nstr in H. assert (0 <= olen txn) by (destruct txn; cbn [olen]; [apply zlen_nonneg|lia]). lia.
Qed.

(** DescribeAcls at version 0 and 1: one byte too many, whatever is sent *)
Lemma describeacls_01 zip corr client b v x : (exists rt rn pt pr ho op pe, b = QDescribeAcls rt rn pt pr ho op pe) ->
  (v = 0 \/ v = 1) -> request_value b v = Some x ->
  exists out r, prepare zip corr v (new_request client b) = Ok (out, r) /\ zlen out = zlen (request_bytes b v corr client x) + 1.
Proof.
  intros (rt & rn & pt & pr & ho & op & pe & ->) Hv Hx.
  unfold prepare, new_request, encode, headerVersion. cbn [h_hv h_key h_client h_ver api_key].
  assert (Hf : hv_switch 29 v = Some (if false then 2 else 1)) by (destruct Hv as [-> | ->]; reflexivity). rewrite Hf. cbn [rbind encode_body].
  unfold enc_describeacls. rewrite (wcut_ok (hlen _ _)) by (rewrite (hops_bytes false), <- (hlen_bytes false); lia). cbn [rbind fst snd].
  rewrite (hops_bytes false).
  eexists _, _. split; [reflexivity|]. unfold request_bytes, frame. rewrite keys.
  replace (flexibleb (api_key (QDescribeAcls rt rn pt pr ho op pe)) v) with false by (destruct Hv as [-> | ->]; reflexivity).
  cbn [h_key h_ver h_corr h_client api_key]. rewrite !zlen_app, !zlen_be. change (zlen [0]) with 1.
  unfold val_bytes. destruct Hv as [-> | ->]; hx Hx; unfold S_DescribeAcls_0, S_DescribeAcls_1; cbn [Z.ltb Z.leb Z.compare Pos.compare Pos.compare_cont];
    rewrite !encodeNullableString_enc; zs; rewrite ?zlen_be; try change (zlen []) with 0; lia.
Qed.

Definition ex_acl : Z * (bytes * (Z * (bytes * (bytes * (Z * Z))))) := (2, ([116], (3, ([117], ([42], (3, 3)))))).
Lemma createacls_1 : exists out r x, request_value (QCreateAcls [ex_acl]) 1 = Some x /\
  prepare noz 7 1 (new_request (Some [99]) (QCreateAcls [ex_acl])) = Ok (out, r) /\
  val_wf x /\ zlen out = zlen (request_bytes (QCreateAcls [ex_acl]) 1 7 (Some [99]) x) + 2.
Proof.
  eexists _, _, _. split; [reflexivity|]. split; [vm_compute; reflexivity|]. split; [|vm_compute; reflexivity].
  apply wfb_ok; vm_compute; reflexivity.
Qed.

(** CreatePartitions at version 0: "let the broker place the replicas" (null) is sent as an empty list *)
Lemma createpartitions_0_null : exists out r x y,
  request_value (QCreatePartitions [([116], (3, None))] 1000 false) 0 = Some x /\
  request_value (QCreatePartitions [([116], (3, Some []))] 1000 false) 0 = Some y /\
  prepare noz 7 0 (new_request (Some [99]) (QCreatePartitions [([116], (3, None))] 1000 false)) = Ok (out, r) /\
  out <> request_bytes (QCreatePartitions [([116], (3, None))] 1000 false) 0 7 (Some [99]) x /\
  out = request_bytes (QCreatePartitions [([116], (3, None))] 1000 false) 0 7 (Some [99]) y.
Proof.
  eexists _, _, _, _. split; [reflexivity|]. split; [reflexivity|]. split; [vm_compute; reflexivity|].
  split; [vm_compute; congruence|vm_compute; reflexivity].
Qed.

(** Fetch with several partitions of one topic overruns the buffer *)
Definition many_parts (n : nat) : list (Z * (Z * (Z * (Z * Z)))) := map (fun i => (Z.of_nat i, (-1, (0, (0, 1048576))))) (seq 0 n).
Lemma fetch_many : exists b x, (exists ts, b = QFetch (-1) 100 1 1048576 0 0 (-1) ts []) /\ request_value b 10 = Some x /\ val_wf x /\
  prepare noz 7 10 (new_request (Some [99]) b) = Panic.
Proof.
  exists (QFetch (-1) 100 1 1048576 0 0 (-1) [([116], many_parts 8)] []). eexists. split; [eexists; reflexivity|]. split; [reflexivity|].
  split; [|vm_compute; reflexivity].
  apply wfb_ok; vm_compute; reflexivity.
Qed.

(** A request object sent at a version with the other header kind *)
Definition resend (b : rbody) (v1 v2 : Z) : option (bytes * bytes) :=
  match prepare noz 7 v1 (new_request (Some [99]) b) with
  | Ok (_, r) => match prepare noz 8 v2 r, prepare noz 8 v2 (new_request (Some [99]) b) with
                 | Ok (o, _), Ok (o', _) => Some (o, o')
                 | _, _ => None
                 end
  | _ => None
  end.
Lemma resend_differs : exists b v1 v2 out1 r1 out2 r2 x, In v1 (versions b) /\ In v2 (versions b) /\
  prepare noz 7 v1 (new_request (Some [99]) b) = Ok (out1, r1) /\
  request_value b v2 = Some x /\ val_wf x /\ fits (Some [99]) b v2 /\
  prepare noz 8 v2 r1 = Ok (out2, r2) /\ out2 <> request_bytes b v2 8 (Some [99]) x.
Proof.
  exists (QListGroups (Some []) (Some [])), 5, 2. eexists _, _, _, _, _. split; [cbn; tauto|]. split; [cbn; tauto|].
  split; [vm_compute; reflexivity|]. split; [reflexivity|]. split; [exact I|]. split; [split; constructor|].
  split; [vm_compute; reflexivity|]. vm_compute; congruence.
Qed.

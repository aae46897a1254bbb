(** C144: a response that ends early.  The frame around it is right: the length in front is
    that of what follows, but what follows is only the beginning of an answer (or an answer
    and more).  Modelled: all decoders (Responses.v). *)
From Verif Require Import Base BaseFacts Wire WireFacts Prims Group Assign RequestSpec Responses ResponseSpec ResponseFacts ResponseRefute CutSpec CutFacts CutDecode.
Local Open Scope ty_scope.

(** What a decoder without variable-length counts makes of a response depends on its first
    n bytes: with them, whatever follows, it is the same answer or the same error; cut
    anywhere in them, the decoder panics.  No beginning of an answer is taken for another
    answer or error. *)
Theorem C144_decided_partial : forall key v s, plain_counts key v = true -> zlen s < 2 ^ 32 -> parse key v (frame s) <> Panic ->
  exists n, decided (parse key v) s n (parse key v (frame s)).
Proof. exact decided_by. Qed.
Print Assumptions C144_decided_partial.
(** fourteen bytes of answer, three bytes more *)
Example C144_decided_ex : let s := be 4 7 ++ be 2 0 ++ be 4 4 ++ [1; 2; 3; 4] ++ [9; 9; 9] in
  parse 14 0 (frame s) = Ok (RSyncGroup 7 0 [1; 2; 3; 4]) /\
  map (fun m => match parse 14 0 (frame (firstn m s)) with Ok _ => 1 | Err _ => 2 | Panic => 3 | Unspec => 4 end) (seq 0 18)
  = repeat 3 14 ++ repeat 1 4.
Proof. vm_compute. split; reflexivity. Qed.

(** REFUTED: a response that ends early is an error.  Cut anywhere, an answer without error
    makes the client panic: in all of these APIs. *)
Theorem C144_cut_refuted : forall key v sp corr (x : den (s_ty sp)) m, cut_spec key v = Some sp ->
  u32 corr -> wf (s_ty sp) x -> s_ok sp [] x -> zlen (be 4 corr ++ enc (s_ty sp) x) < 2 ^ 32 -> Forall (fun c => c = 0) (s_codes sp x) ->
  (m < length (be 4 corr ++ enc (s_ty sp) x))%nat -> answer key v (frame (firstn m (be 4 corr ++ enc (s_ty sp) x))) = Panic.
Proof. exact (fun key v sp corr x m H => proj2 (cut_table key v sp H) corr x m). Qed.
Print Assumptions C144_cut_refuted.
Example C144_cut_ex : answer 14 0 (frame (be 4 7 ++ enc R_SyncGroup_0 (0, [1; 2; 3; 4]))) = Ok (RSyncGroup 7 0 [1; 2; 3; 4]) /\
  answer 14 0 (frame (firstn 13 (be 4 7 ++ enc R_SyncGroup_0 (0, [1; 2; 3; 4])))) = Panic.
Proof. vm_compute. split; reflexivity. Qed.

(** REFUTED: no beginning of an answer is taken for another answer.  Where counts are
    varints, a missing count is zero: an answer to a reassignment of partitions, whatever it
    says about them, is a success without topics when it ends behind the (absent) message. *)
Theorem C144_reassignment_refuted : forall corr th ts tags, u32 corr -> wf TI32 th ->
  answer 45 0 (frame (firstn 12 (rheader_bytes 45 0 corr [] ++ enc R_AlterReassignments_0 (th, (0, (None, (ts, tags)))))))
  = Ok (RAlterReassignments corr [] th 0 None None []).
Proof.
  intros corr th ts tags Hc Ht.
  refine (eq_trans (f_equal (fun l => answer 45 0 (frame l)) (_ : _ = be 4 corr ++ enc TTags [] ++ enc TI32 th ++ enc TI16 0 ++ enc TCNStr None)) _).
  { unfold R_AlterReassignments_0. rewrite !enc_pair. reflexivity. }
  cbv beta. unfold answer. cbn [parse]. unfold dec_alterreassignments.
  change (frame (be 4 corr ++ enc TTags [] ++ enc TI32 th ++ enc TI16 0 ++ enc TCNStr None))
    with (be 4 12 ++ be 4 corr ++ enc TTags [] ++ enc TI32 th ++ enc TI16 0 ++ enc TCNStr None).
  rewrite rd_i32_be by (unfold i32; lia).
  change (12 + 4 =? zlen (be 4 12 ++ be 4 corr ++ enc TTags [] ++ enc TI32 th ++ enc TI16 0 ++ enc TCNStr None)) with true. cbv iota.
  rewrite <- (app_nil_r (enc TCNStr None)). unfold rd_header.
  assert (W : wf TTags []) by (cbn; repeat constructor). assert (W0 : wf TI16 0) by (vm_compute; split; congruence). assert (W1 : wf TCNStr None) by exact Logic.I.
  erewrite bind_ok by (repeat step1; reflexivity). repeat step1. reflexivity.
Qed.
Print Assumptions C144_reassignment_refuted.
(** the broker refused one partition: INVALID_REPLICA_ASSIGNMENT (39) *)
Example C144_reassignment_ex : let b := rheader_bytes 45 0 7 [] ++ enc R_AlterReassignments_0 (0, (0, (None, ([([116], ([(0, (39, (Some [110; 111], [])))], []))], [])))) in
  answer 45 0 (frame b) = Err (EWrap (EKafka 39)) /\ exists r, answer 45 0 (frame (firstn 12 b)) = Ok r.
Proof. cbv zeta. split; [vm_compute; reflexivity|]. exists (RAlterReassignments 7 [] 0 0 None None []). vm_compute. reflexivity. Qed.

(** The list of groups: an answer with groups is one without when it is cut. *)
Theorem C144_groups_refuted : exists (x : den R_ListGroups_3) m r, wf R_ListGroups_3 x /\ fst (snd (snd x)) <> [] /\
  answer 16 3 (frame (firstn m (rheader_bytes 16 3 7 [] ++ enc R_ListGroups_3 x))) = Ok r /\ r = RListGroups 7 [] 0 0 None [].
Proof.
  exists (0, (0, ([([103], ([99], []))], []))), 11%nat, (RListGroups 7 [] 0 0 None []).
  split; [wfc|]. split; [discriminate|]. split; [vm_compute; reflexivity|reflexivity].
Qed.
Print Assumptions C144_groups_refuted.

(** The answer to the credentials: bytes that are missing are zeros. *)
Theorem C144_sasl_refuted : exists (x : den R_SaslAuthenticate_0) m r, wf R_SaslAuthenticate_0 x /\ snd (snd x) = [1; 2; 3] /\
  answer 36 0 (frame (firstn m (rheader_bytes 36 0 7 [] ++ enc R_SaslAuthenticate_0 x))) = Ok r /\ r = RSaslAuthenticate 7 0 [] [1; 0; 0].
Proof.
  exists (0, (None, [1; 2; 3])), 13%nat, (RSaslAuthenticate 7 0 [] [1; 0; 0]).
  split; [wfc|]. split; [reflexivity|]. split; [vm_compute; reflexivity|reflexivity].
Qed.
Print Assumptions C144_sasl_refuted.

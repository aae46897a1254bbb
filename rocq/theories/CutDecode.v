(** The decoders of answers without variable-length counts read an answer to its end. *)
From Verif Require Import Base BaseFacts Wire WireFacts Prims PrimsFacts Group GroupFacts Assign AssignFacts RequestSpec Responses ResponseSpec ResponseFacts ResponseDecode CutSpec CutFacts.
Local Open Scope ty_scope.

Definition cut_panics (key v : Z) (sp : rspec) : Prop := forall corr (x : den (s_ty sp)) m,
  u32 corr -> wf (s_ty sp) x -> s_ok sp [] x -> zlen (be 4 corr ++ enc (s_ty sp) x) < 2 ^ 32 -> Forall (fun c => c = 0) (s_codes sp x) ->
  (m < length (be 4 corr ++ enc (s_ty sp) x))%nat -> answer key v (frame (firstn m (be 4 corr ++ enc (s_ty sp) x))) = Panic.
Lemma answer_panic key v b : parse key v b = Panic -> answer key v b = Panic.
Proof. intros H. unfold answer. rewrite H. reflexivity. Qed.
Ltac cut P := intros corr x m Hc Hw Hok Hs Hz Hm; apply answer_panic; cbn [s_ty s_ok s_codes P] in *;
  rewrite <- (app_nil_r (enc _ _)) in Hs, Hm |- *; open_pairs.
Ltac cut2 := cbn [parse]; eapply cut_whole; [sts| |match goal with H : zlen _ < 2 ^ 32 |- _ => exact H end|match goal with H : (_ < length _)%nat |- _ => exact H end].
Ltac zero1 := match goal with H : Forall _ [?c] |- _ => inversion H; subst; clear H end.
Lemma no_code cs : Forall (fun c => c = 0) cs -> first_code cs = None.
Proof. intros H. unfold first_code. rewrite find_zeros by exact H. reflexivity. Qed.

Lemma c_heartbeat : cut_panics 12 0 P_Heartbeat.
Proof. cut P_Heartbeat. cut2. repeat step1. zero1. reflexivity. Qed.
Lemma c_leavegroup : cut_panics 13 0 P_LeaveGroup.
Proof. cut P_LeaveGroup. cut2. repeat step1. zero1. reflexivity. Qed.
Lemma c_apiversions : cut_panics 18 0 P_ApiVersions.
Proof.
  cut P_ApiVersions. cut2. spread. repeat step1. arr (fun a : Z * (Z * Z) => (as_u 16 (fst a), (as_u 16 (fst (snd a)), as_u 16 (snd (snd a))))). reflexivity.
Qed.
Lemma c_findcoordinator : cut_panics 10 0 P_FindCoordinator.
Proof. cut P_FindCoordinator. cut2. spread. repeat step1. reflexivity. Qed.
Lemma c_joingroup : cut_panics 11 0 P_JoinGroup.
Proof. cut P_JoinGroup. cut2. spread. repeat step1. arr (fun a : bytes * bytes => a). zero1. reflexivity. Qed.
Lemma c_syncgroup : cut_panics 14 0 P_SyncGroup.
Proof. cut P_SyncGroup. cut2. spread. repeat step1. zero1. reflexivity. Qed.
Lemma c_metadata_1 : cut_panics 3 1 P_Metadata_1.
Proof.
  cut P_Metadata_1. cut2; [apply st_broker|apply st_topicmeta|]. spread. ifs. repeat step1.
  erewrite bind_ok by (apply (arr_e R_Broker _ v_broker); [exact broker_e|eassumption]).
  repeat step1. erewrite bind_ok.
  2:{ apply (arr_e (TI16 *** TStr *** TBool *** TArr R_Part_1) _ (v_topic v_part_1)); [|eassumption]. intros y q. apply topic_e. intros. apply part_1; [reflexivity|assumption]. }
  reflexivity.
Qed.
Lemma c_offsets_0 : cut_panics 2 0 P_ListOffsets_0.
Proof.
  cut P_ListOffsets_0. unfold R_ListOffsets_0 in *. cbn [den] in x. cut2; [apply st_offset|]. ifs. repeat step1.
  erewrite bind_ok by (apply (tp_e (TI32 *** TI16 *** TArr TI64) (rd_offset 0) (fun p : Z * (Z * list Z) => (fst p, (fst (snd p), (snd (snd p), (0, 0))))));
      [unfold rd_offset; ifs; elem|exact Hw]). reflexivity.
Qed.
Lemma c_offsetcommit v : cut_panics 8 v P_OffsetCommit.
Proof.
  cut P_OffsetCommit. unfold R_OffsetCommit_0 in *. cbn [den] in x. cut2. repeat step1.
  erewrite bind_ok by (apply (tp_e (TI32 *** TI16) _ (fun p : Z * Z => (as_u 32 (fst p), snd p))); [elem|exact Hw]).
  rewrite no_code; [reflexivity|]. pose proof (tp_codes_map (fun p : Z * Z => (as_u 32 (fst p), snd p)) snd snd x (fun p => eq_refl)) as K. rewrite K in Hz. exact Hz.
Qed.
Lemma c_offsetfetch v : cut_panics 9 v P_OffsetFetch.
Proof.
  cut P_OffsetFetch. unfold R_OffsetFetch_0 in *. cbn [den] in x. cut2. repeat step1.
  erewrite bind_ok.
  2:{ apply (tp_q (TI32 *** TI64 *** TNStr *** TI16) _
          (fun p : Z * (Z * (option bytes * Z)) => (fst p, (fst (snd p), (or_empty (fst (snd (snd p))), snd (snd (snd p))))))
          (fun p : Z * (Z * (option bytes * Z)) => fst (snd (snd p)) <> None)); [|exact Hw|exact Hok].
      intros y q Hy Hq. open_pairs. spread. repeat step1.
      erewrite bind_ok by (apply str_some; assumption). repeat step1. reflexivity. }
  rewrite no_code; [reflexivity|]. pose proof (tp_codes_map (fun p : Z * (Z * (option bytes * Z)) => (fst p, (fst (snd p), (or_empty (fst (snd (snd p))), snd (snd (snd p))))))
    (fun p => snd (snd (snd p))) (fun p : Z * (Z * (option bytes * Z)) => snd (snd (snd p))) x (fun p => eq_refl)) as K. rewrite K in Hz. exact Hz.
Qed.
Lemma c_deletegroups : cut_panics 42 0 P_DeleteGroups.
Proof.
  cut P_DeleteGroups. cut2; [apply st_result|]. spread. repeat step1.
  erewrite bind_ok by (apply (arr_e (TStr *** TI16) _ (fun a : bytes * Z => a)); [exact result_e|eassumption]). reflexivity.
Qed.
Lemma c_deletetopics : cut_panics 20 0 P_DeleteTopics.
Proof.
  cut P_DeleteTopics. unfold R_Topics_0 in *. cbn [den] in x. cut2; [apply st_result|]. repeat step1.
  erewrite bind_ok by (apply (arr_e (TStr *** TI16) _ (fun a : bytes * Z => a)); [exact result_e|eassumption]). reflexivity.
Qed.
Lemma c_createtopics : cut_panics 19 0 P_CreateTopics.
Proof.
  cut P_CreateTopics. unfold R_Topics_0 in *. cbn [den] in x. cut2. repeat step1.
  erewrite bind_ok by (apply (iarr_e (TStr *** TI16) _ (fun a : bytes * Z => a)); [elem|eassumption]). reflexivity.
Qed.

(** the answers looked at *)
Definition cut_spec (key v : Z) : option rspec :=
  match key, v with
  | 12, 0 => Some P_Heartbeat | 13, 0 => Some P_LeaveGroup | 18, 0 => Some P_ApiVersions | 3, 1 => Some P_Metadata_1
  | 10, 0 => Some P_FindCoordinator | 11, 0 => Some P_JoinGroup | 14, 0 => Some P_SyncGroup | 2, 0 => Some P_ListOffsets_0
  | 8, 0 => Some P_OffsetCommit | 8, 2 => Some P_OffsetCommit | 9, 0 => Some P_OffsetFetch | 9, 1 => Some P_OffsetFetch
  | 42, 0 => Some P_DeleteGroups | 19, 0 => Some P_CreateTopics | 20, 0 => Some P_DeleteTopics
  | _, _ => None
  end.
Lemma cut_table key v sp : cut_spec key v = Some sp -> response_spec key v = Some sp /\ cut_panics key v sp.
Proof.
  intros H. unfold cut_spec in H.
  repeat match type of H with
  | match ?x with _ => _ end = _ => is_var x; destruct x; try discriminate H
  end; injection H as <-; (split; [reflexivity|]).
  all: first [exact c_heartbeat|exact c_leavegroup|exact c_apiversions|exact c_metadata_1|exact c_findcoordinator|exact c_joingroup|exact c_syncgroup|exact c_offsets_0|
    exact (c_offsetcommit 0)|exact (c_offsetcommit 2)|exact (c_offsetfetch 0)|exact (c_offsetfetch 1)|exact c_deletegroups|exact c_createtopics|exact c_deletetopics].
Qed.

(** Properties of the consumer of whole topics (C77, C78). *)
From Verif Require Import Base TopConsumer TopConsumerSpec TopConsumerRun.

(** C77, for assignments that name at least one topic and no empty list of partitions:
    whatever the order of calls, failed metadata requests and failed coordinator lookups, when
    Consume returns it has started exactly the wanted partitions, each once, all from the
    beginning or all from the end as configured. *)
Theorem C77_partitions_partial : forall topics from ops s tr,
  trun (tinit topics from) ops = Ok (s, tr) -> ~ In OAwaitClose ops -> t_phase s = PDone true ->
  (forall b mds a, ops = b ++ OMeta mds :: a -> let ws := last_wish (map All topics) b in sensible ws /\ answers mds ws) ->
  exists b mds a, ops = b ++ OMeta mds :: a /\
    NoDup (map fst (starts tr)) /\
    forall t p o, In ((t, p), o) (starts tr) <->
      wanted (last_wish (map All topics) b) mds t p /\ o = (if from then -2 else -1).
Proof. exact consume_ok. Qed.
Print Assumptions C77_partitions_partial.
Example C77_ex :
  let ops := [OAssign [([97], [2; 0]); ([98], [1])]; OConsume; OMetaFail; OMeta [([98], [0; 1]); ([97], [0; 1; 2])];
              OCoord true; OCoord false; OCoord true; OCoord true; ONext; ONext; ONext; ONext] in
  match trun (tinit [[99]] true) ops with
  | Ok (s, tr) => t_phase s = PDone true /\ starts tr = [(([98], 1), -2); (([97], 2), -2); (([97], 0), -2)]
  | _ => False
  end.
Proof. vm_compute. auto. Qed.

(** C77 is false without a topic: the metadata request then names no topic, the answer lists
    all topics of the cluster, and all of them are consumed (consumer.go:94). *)
Theorem C77_no_topic_refuted : exists ops s tr t p o,
  trun (tinit [] false) ops = Ok (s, tr) /\ In (TAsked []) tr /\ In ((t, p), o) (starts tr) /\
  forall mds, ~ wanted (last_wish [] ops) mds t p.
Proof.
  exists [OConsume; OMeta [([97], [0])]; OCoord true; ONext; ONext].
  eexists; eexists; exists [97], 0, (-1). split; [vm_compute; reflexivity|].
  split; [vm_compute; auto|]. split; [vm_compute; auto|].
  intros mds [(H & _)|(ps & H & _)]; exact H.
Qed.
Print Assumptions C77_no_topic_refuted.
(** ... and for a topic assigned with an empty list: all its partitions are consumed. *)
Theorem C77_empty_list_refuted : exists ops s tr t p o,
  trun (tinit [] false) ops = Ok (s, tr) /\ In ((t, p), o) (starts tr) /\
  forall mds, ~ wanted (last_wish [] ops) mds t p.
Proof.
  exists [OAssign [([97], [])]; OConsume; OMeta [([97], [0])]; OCoord true; ONext; ONext].
  eexists; eexists; exists [97], 0, (-1). split; [vm_compute; reflexivity|].
  split; [vm_compute; auto|].
  intros mds [(H & _)|(ps & H & Hp)]; cbn in H; destruct H as [H|[]]; [discriminate|].
  injection H as <-. exact Hp.
Qed.
Print Assumptions C77_empty_list_refuted.

(** C78: one AwaitClose after Consume returned stops every partition consumer and then closes
    the brokers. *)
Theorem C78_close_after_partial : forall topics from ops s tr,
  trun (tinit topics from) ops = Ok (s, tr) -> ~ In OAwaitClose ops -> t_phase s = PDone true ->
  exists s', trun s [OAwaitClose; OWaited] = Ok (s', []) /\
    Forall (fun c => sc_stop c = true /\ sc_live c = None) (t_scs s') /\ map sc_part (t_scs s') = map sc_part (t_scs s) /\
    t_wg s' = 0 /\ t_shut s' = true.
Proof. exact close_after_ok. Qed.
Print Assumptions C78_close_after_partial.

(** C78: the brokers are not closed before AwaitClose was called. *)
Theorem C78_open_partial : forall topics from ops s tr,
  trun (tinit topics from) ops = Ok (s, tr) -> ~ In OAwaitClose ops -> t_shut s = false.
Proof.
  intros topics from ops. assert (K : t_shut (tinit topics from) = false /\ t_waits (tinit topics from) <= 0) by (split; [reflexivity|cbn; lia]).
  revert K. generalize (tinit topics from). induction ops as [|o ops IH]; intros s0 [A B] s tr E N; cbn [trun] in E.
  - injection E as <- _. exact A.
  - destruct (tstep s0 o) as [[s1 e]| | |] eqn:S; try discriminate. cbn [rbind] in E.
    destruct (trun s1 ops) as [[s2 e2]| | |] eqn:R; try discriminate. cbn [rbind] in E. injection E as <- _.
    refine (IH s1 _ _ _ R (fun H => N (or_intror H))).
    assert (No : o <> OAwaitClose) by (intros ->; exact (N (or_introl eq_refl))).
    unfold tstep, with_phase, with_scs, with_assign in S.
    destruct o; try congruence; destruct (t_phase s0);
      repeat match type of S with
             | context [match ?x with _ => _ end] => destruct x eqn:?
             end; injection S as <- _; cbn; split; auto; try lia;
      match goal with H : _ && _ = true |- _ => apply andb_true_iff in H as [H _]; apply Z.ltb_lt in H; lia end.
Qed.
Print Assumptions C78_open_partial.

(** C78: after a close before Consume has its metadata, nothing is ever started and no
    further call crashes. *)
Theorem C78_early_close_partial : forall ops s, t_closed s = true -> t_scs s = [] ->
  match t_phase s with PIdle | PMeta | PDone false => True | _ => False end ->
  exists s' tr, trun s ops = Ok (s', tr) /\ starts tr = [] /\ t_scs s' = [] /\
    match t_phase s' with PIdle | PMeta | PDone false => True | _ => False end.
Proof. exact early_close_inv. Qed.
Print Assumptions C78_early_close_partial.
Example C78_ex :
  let s0 := tinit [[97]] false in
  match trun s0 [OConsume; OMeta [([97], [0; 1])]; OCoord true; OCoord true; ONext; ONext; ONext; OAwaitClose; OWaited] with
  | Ok (s, tr) => starts tr = [(([97], 0), -1); (([97], 1), -1)] /\ t_shut s = true /\ map sc_live (t_scs s) = [None; None]
  | _ => False
  end /\
  match trun s0 [OConsume; OAwaitClose; OWaited; OMeta [([97], [0; 1])]; OCoord true; ONext; OAwaitClose] with
  | Ok (s, tr) => starts tr = [] /\ t_shut s = true /\ t_phase s = PDone false
  | _ => False
  end.
Proof. vm_compute. auto 10. Qed.

(** C78 is false: a close while Consume is still looking up coordinators lowers the wait group
    below zero (consumer.go:118 comes before 132), *)
Theorem C78_close_in_setup_refuted : exists topics ops,
  trun (tinit topics false) (ops ++ [OAwaitClose]) = Panic /\
  exists s tr, trun (tinit topics false) ops = Ok (s, tr) /\ ~ In OAwaitClose ops.
Proof.
  exists [[97]], [OConsume; OMeta [([97], [0; 1])]; OCoord true]. split; [vm_compute; reflexivity|].
  eexists; eexists. split; [vm_compute; reflexivity|].
  intros H; repeat (destruct H as [H|H]; [discriminate|]); exact H.
Qed.
Print Assumptions C78_close_in_setup_refuted.
(** a second close does so too, *)
Theorem C78_close_twice_refuted : exists topics ops s tr,
  trun (tinit topics false) ops = Ok (s, tr) /\ t_phase s = PDone true /\ ~ In OAwaitClose ops /\
  trun s [OAwaitClose; OAwaitClose] = Panic.
Proof.
  exists [[97]], [OConsume; OMeta [([97], [0])]; OCoord true; ONext; ONext]. eexists; eexists.
  split; [vm_compute; reflexivity|]. split; [reflexivity|]. split; [|vm_compute; reflexivity].
  intros H; repeat (destruct H as [H|H]; [discriminate|]); exact H.
Qed.
Print Assumptions C78_close_twice_refuted.
(** and a close during the first coordinator lookup does not keep the partitions from being
    started after it, with the brokers closed. *)
Theorem C78_start_after_close_refuted : exists topics ops s tr s' tr',
  trun (tinit topics false) (ops ++ [OAwaitClose; OWaited]) = Ok (s, tr) /\ t_shut s = true /\ starts tr = [] /\
  trun s [OCoord true; ONext; ONext] = Ok (s', tr') /\ starts tr' <> [] /\ Exists (fun c => sc_live c <> None) (t_scs s').
Proof.
  exists [[97]], [OConsume; OMeta [([97], [0])]]. eexists; eexists; eexists; eexists.
  split; [vm_compute; reflexivity|]. split; [reflexivity|]. split; [reflexivity|].
  split; [vm_compute; reflexivity|]. split; [discriminate|]. constructor; discriminate.
Qed.
Print Assumptions C78_start_after_close_refuted.

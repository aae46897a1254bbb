(** C140: Stop beside Consume.  Consume (simple_consumer.go:342-398), the goroutines it starts and Stop
    (277-294), in any interleaving. *)
From Verif Require Import Base BaseFacts Starting StartingSpec StartingFacts.

(** ** Nothing is fetched when Stop has returned, however Stop and Consume are interleaved *)
Theorem C140_quiet : forall group auto off ops a b,
  snd (drun group auto (sinit off) ops) = a ++ VStopped :: b -> ~ In VFetch b.
Proof. intros group auto off ops a b. exact (quiet_run group auto ops (sinit off) a b (Q_init off)). Qed.
Print Assumptions C140_quiet.

(** ** Consume returns when the consumer is stopped *)
(** It does not: while the coordinator cannot be asked, getCommitedOffet (simple_consumer.go:249-258)
    asks for ever, and does not look whether the consumer was stopped. *)
Definition asking : list sop := [DConsume None; DConsume (Some 0); DConsume None; DStop; DStop; DStop; DStop].
Lemma asks_on auto s : s_con s = CAsk -> forall n, s_con (fst (drun true auto s (repeat (DConsume None) n))) = CAsk /\
  snd (drun true auto s (repeat (DConsume None) n)) = repeat VAskCommitted n.
Proof.
  intros E. induction n as [|n [IH1 IH2]]; [split; [exact E|reflexivity]|].
  assert (X : dstep true auto s (DConsume None) = (s, [VAskCommitted])) by (cbn [dstep]; unfold consume1; rewrite E; reflexivity).
  cbn [repeat drun]. rewrite X. destruct (drun true auto s (repeat (DConsume None) n)) as [s2 e2]. cbn [fst snd] in *.
  split; [exact IH1|]. rewrite IH2. reflexivity.
Qed.
Theorem C140_returns_refuted : exists off ops, forall auto n,
  s_stop (fst (drun true auto (sinit off) ops)) = SOver /\
  let r := drun true auto (sinit off) (ops ++ repeat (DConsume None) n) in
  s_con (fst r) = CAsk /\ snd r = [VOpen; VClosed; VStopped] ++ repeat VAskCommitted n /\ ~ In VReturned (snd r).
Proof.
  exists (-1), asking. intros auto n. split; [destruct auto; reflexivity|]. cbv zeta. rewrite drun_app.
  assert (X : s_con (fst (drun true auto (sinit (-1)) asking)) = CAsk) by (destruct auto; reflexivity).
  assert (Y : snd (drun true auto (sinit (-1)) asking) = [VOpen; VClosed; VStopped]) by (destruct auto; reflexivity).
  destruct (asks_on auto _ X n) as [A B]. cbn [fst snd]. rewrite A, B, Y. repeat split.
  rewrite in_app_iff. intros [I|I]; [cbn in I; intuition discriminate|]. apply repeat_spec in I. discriminate I.
Qed.
Print Assumptions C140_returns_refuted.
(** A stopped consumer's Consume returns within three steps unless it is refused that answer. *)
Theorem C140_returns_partial : forall group auto s a1 a2 a3, s_flag s = true -> (s_con s = CAsk -> a1 <> None) ->
  s_con (fst (drun group auto s [DConsume a1; DConsume a2; DConsume a3])) = CDone.
Proof. exact ends_soon. Qed.
Print Assumptions C140_returns_partial.
(** The flag is set from the second step of Stop on. *)
Theorem C140_returns_flag : forall group auto off ops, s_stop (fst (drun group auto (sinit off) ops)) = SOver ->
  s_flag (fst (drun group auto (sinit off) ops)) = true.
Proof.
  intros group auto off ops E. destruct (Q_run group auto ops (sinit off) (Q_init off)) as (_ & _ & S). rewrite E in S. exact (proj1 S).
Qed.
Print Assumptions C140_returns_flag.

(** ** When all is over, the connection to the leader is closed *)
(** Stop came while getLeaderBroker (357) was looking for the leader: Stop saw no handle, then there was one. *)
Theorem C140_closed_refuted : exists ops, forall group auto off,
  let r := drun group auto (sinit off) ops in
  all_over (fst r) /\ s_lead (fst r) = Some true /\ snd r = [VStopped; VOpen; VReturned].
Proof.
  exists [DConsume None; DStop; DStop; DStop; DStop; DConsume (Some 0); DConsume None].
  intros group auto off. cbn. repeat split; auto; discriminate.
Qed.
Print Assumptions C140_closed_refuted.
(** Stop came while initOffset (190) was about to ask the leader: the question opens again what Stop closed. *)
Theorem C140_reopened_refuted : exists ops, forall auto,
  let r := drun false auto (sinit (-1)) ops in
  all_over (fst r) /\ s_lead (fst r) = Some true /\
  snd r = [VOpen; VClosed; VStopped; VOpen; VAskOffset; VReturned].
Proof.
  exists [DConsume None; DConsume (Some 0); DConsume None; DConsume None; DStop; DStop; DStop; DStop; DConsume (Some 7); DConsume None; DLoop None; DLoop None].
  intros auto. destruct auto; vm_compute; repeat split; auto; discriminate.
Qed.
Print Assumptions C140_reopened_refuted.
(** It is closed if Stop is called when Consume has returned: then nothing opens it after Stop closed it. *)
Theorem C140_closed_partial : forall group auto off ops, after_start group auto (sinit off) ops ->
  let s := fst (drun group auto (sinit off) ops) in s_stop s = SOver -> s_lead s <> Some true.
Proof. intros group auto off ops A s. exact (proj2 (proj2 (proj2 (H_run group auto ops _ A (H_init off))))). Qed.
Print Assumptions C140_closed_partial.

(** ** Only offsets are committed, not -1 and -2 that stand for the newest and the oldest *)
(** Stop came while the coordinator was being asked, and there was no committed offset: initOffset (190) asks
    nothing, the offset stays -1, and the goroutine that commits is started all the same and commits it. *)
Theorem C140_commit_refuted : exists off ops, In off [-1; -2] /\
  snd (drun true true (sinit off) ops) = [VOpen; VClosed; VStopped; VAskCommitted; VReturned; VCommit off].
Proof.
  exists (-1), (asking ++ [DConsume (Some (-1)); DConsume None; DConsume None; DCommit true]). split; [left; reflexivity|reflexivity].
Qed.
Print Assumptions C140_commit_refuted.
(** So too from -2: the group would be told to have read up to -2. *)
Theorem C140_commit_oldest_refuted :
  In (VCommit (-2)) (snd (drun true true (sinit (-2)) (asking ++ [DConsume (Some (-1)); DConsume None; DConsume None; DCommit true]))).
Proof. vm_compute. tauto. Qed.
Print Assumptions C140_commit_oldest_refuted.
(** An offset that could not be looked up is forgotten: from -2 and refused once, -1 is committed. *)
Theorem C140_commit_forgotten_refuted : exists ops,
  snd (drun true true (sinit (-2)) ops) = [VOpen; VAskCommitted; VClosed; VStopped; VOpen; VAskOffset; VReturned; VCommit (-1)].
Proof.
  exists [DConsume None; DConsume (Some 0); DConsume None; DConsume (Some (-1)); DConsume None; DStop; DStop; DStop; DStop;
          DConsume None; DConsume None; DConsume None; DCommit true]. reflexivity.
Qed.
Print Assumptions C140_commit_forgotten_refuted.
Theorem C140_commit_partial : forall group auto off ops, (0 <= off \/ off = -1 \/ off = -2) ->
  after_start group auto (sinit off) ops -> answers_real group auto (sinit off) ops ->
  forall v, In (VCommit v) (snd (drun group auto (sinit off) ops)) -> 0 <= v.
Proof.
  intros group auto off ops O A R. refine (N_run group auto ops (sinit off) R A (H_init off) (N_init off _)).
  destruct O as [O|[->| ->]]; [left; exact O|right; reflexivity..].
Qed.
Print Assumptions C140_commit_partial.

(** ** A run in order: the partition is found, 3 is the committed offset, the loop fetches and goes to 5, the
    consumer is stopped, its loop ends, Stop closes, the last commit is made *)
Definition in_order : list sop :=
  [DConsume None; DConsume (Some 0); DConsume None; DConsume (Some 3); DConsume None; DLoop None; DLoop None; DLoop (Some 5);
   DStop; DStop; DStop; DLoop None; DStop; DStop; DCommit true].
Example C140_example :
  snd (drun true true (sinit (-1)) in_order) = [VOpen; VAskCommitted; VReturned; VFetch; VClosed; VStopped; VCommit 5] /\
  all_over (fst (drun true true (sinit (-1)) in_order)) /\ after_start true true (sinit (-1)) in_order /\ answers_real true true (sinit (-1)) in_order.
Proof.
  split; [reflexivity|]. split; [vm_compute; repeat split; auto; discriminate|].
  split; cbn; repeat split; auto; try discriminate; intros; try congruence; lia.
Qed.
(** ** The committing goroutine ends with its next turn once Stop has been called, and from then on there is one commit at most *)
Theorem C140_last_commit : forall group auto off before after ok,
  let s := fst (drun group auto (sinit off) before) in s_ctx s = true ->
  (length (committed (snd (drun group auto s after))) <= 1)%nat /\ s_commit (fst (dstep group auto s (DCommit ok))) <> KRuns.
Proof.
  intros group auto off before after ok s C. split.
  - pose proof (may_run group auto after s C (K_run group auto before _ (K_init off))) as M. pose proof (may_one s). lia.
  - cbn [dstep]. unfold commit1. rewrite C. destruct (s_commit s) eqn:E; cbn; try congruence. destruct (s_offset s =? s_com s); cbn; discriminate.
Qed.
Print Assumptions C140_last_commit.
(** The first tick commits the offset that was found committed once more, except 0, with which
    offsetCommited starts. *)
Theorem C140_first_commit : forall v, 0 <= v ->
  snd (drun true true (sinit (-1)) [DConsume None; DConsume (Some 0); DConsume None; DConsume (Some v); DConsume None; DCommit true]) =
  [VOpen; VAskCommitted; VReturned] ++ if v =? 0 then [] else [VCommit v].
Proof. intros [|v|v] H; [reflexivity|reflexivity|lia]. Qed.
Print Assumptions C140_first_commit.
(** Nothing but Stop cancels the context or sets the flag: without it the committing goroutine does not end. *)
Theorem C140_only_stop : forall group auto off ops, ~ In DStop ops ->
  let s := fst (drun group auto (sinit off) ops) in s_ctx s = false /\ s_flag s = false /\ s_commit s <> KGone.
Proof.
  intros group auto off ops. assert (G : forall l s, ~ In DStop l -> s_ctx s = false /\ s_flag s = false /\ s_commit s <> KGone ->
    let s' := fst (drun group auto s l) in s_ctx s' = false /\ s_flag s' = false /\ s_commit s' <> KGone);
    [|intros N; apply (G ops _ N); repeat split; discriminate].
  induction l as [|o l IH]; intros s N H; [exact H|]. cbv zeta. rewrite drun_cons. cbn [fst]. apply IH; [intros X; apply N; right; exact X|].
  destruct H as (C & F & K). destruct s as [ctx flag o1 cm ld wg con lp cmt sp]. cbn [s_ctx s_flag s_commit] in *. subst ctx flag.
  destruct o as [ans|lo|ok|]; [| | |contradict N; left; reflexivity]; cbn [dstep].
  - unfold consume1, to_init, use_lead. destruct con, ans, ld as [[]|]; cbn;
      repeat match goal with |- context[if ?b then _ else _] => destruct b; cbn end; repeat split; try exact K; discriminate.
  - unfold loop1, use_lead. destruct lp, lo, ld as [[]|]; cbn; repeat split; exact K.
  - unfold commit1. cbn. destruct cmt; cbn; try (repeat split; exact K). destruct (o1 =? cm); cbn; repeat split; discriminate.
Qed.
Print Assumptions C140_only_stop.
(** An offset whose commit was confirmed is not committed again unless the loop moves on. *)
Theorem C140_not_again : forall group auto s ok, (length (committed (snd (drun group auto s [DCommit true; DCommit ok]))) <= 1)%nat /\
  (s_commit s = KRuns -> s_com (fst (dstep group auto s (DCommit true))) = s_offset s).
Proof.
  intros group auto s ok. destruct s as [ctx fl o0 oc ld wg cn lp km st]. cbn [drun dstep]. unfold commit1. cbn [s_commit s_offset s_com s_ctx].
  destruct km; cbn; [split; [lia|discriminate]| |split; [lia|discriminate]].
  destruct (Z.eqb_spec o0 oc) as [->|N]; cbn; destruct ctx; cbn; rewrite ?Z.eqb_refl; cbn; split; auto; lia.
Qed.
Print Assumptions C140_not_again.
Theorem C140_cancelled : forall group auto off ops, s_stop (fst (drun group auto (sinit off) ops)) <> SIdle -> s_ctx (fst (drun group auto (sinit off) ops)) = true.
Proof. intros group auto off ops. apply (cancelled_run group auto ops (sinit off)). cbn. congruence. Qed.
Print Assumptions C140_cancelled.
Example C140_last_commit_ex : let s := fst (drun true true (sinit (-1)) (firstn 9 in_order)) in
  s_ctx s = true /\ committed (snd (drun true true s (skipn 9 in_order ++ [DCommit true; DCommit true]))) = [5].
Proof. split; reflexivity. Qed.

(** without group: the newest is asked for; it was refused once *)
Example C140_example_plain :
  snd (drun false true (sinit (-1)) [DConsume None; DConsume None; DConsume None; DConsume (Some 0); DConsume None; DConsume None; DConsume None;
    DConsume None; DConsume (Some 9); DConsume None; DLoop None; DLoop None; DLoop None; DCommit true]) =
  [VOpen; VAskOffset; VAskOffset; VReturned; VFetch].
Proof. reflexivity. Qed.

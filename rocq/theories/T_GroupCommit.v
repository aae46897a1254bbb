(** C145: CommitOffset commits what has been consumed. *)
From Verif Require Import Base BaseFacts GroupCommit GroupCommitSpec GroupCommitFacts.

(** whatever is running at the same time: every offset sent for a partition was the position
    of its consumer, and is not negative *)
Theorem C145_only_consumed pos member ops s tr i o b : qrun (qinit pos member) ops = (s, tr) -> In (QCommit i o b) tr ->
  In o (pos i :: positions i ops) /\ 0 <= o.
Proof. exact (only_positions pos member ops s tr i o b). Qed.
Print Assumptions C145_only_consumed.
(** and an offset is taken for committed only after the coordinator stored it *)
Theorem C145_known_stored pos member ops s tr i : qrun (qinit pos member) ops = (s, tr) -> q_com s i <> 0 -> In (QCommit i (q_com s i) true) tr.
Proof. exact (known_stored pos member ops s tr i). Qed.
Print Assumptions C145_known_stored.
(** without a member id nothing is sent *)
Theorem C145_no_member ops s s' tr : q_member s = false -> ~ In (QMember true) ops -> qrun s ops = (s', tr) -> tr = [].
Proof. exact (no_member_run ops s s' tr). Qed.
Print Assumptions C145_no_member.
(** a call returns after at most four steps for every consumer *)
Theorem C145_returns s n steps s' tr : Forall (fun op => exists a b, op = QStep (length (q_calls s)) a b) steps -> (4 * n <= length steps)%nat ->
  qrun s (QCall n :: steps) = (s', tr) -> call_returned s' (length (q_calls s)).
Proof. exact (call_ends s n steps s' tr). Qed.
Print Assumptions C145_returns.
(** a call that nothing comes between, whatever its requests are answered: one request for
    each consumer that has moved, in order, with its position; what is not stored stays to be
    committed *)
Theorem C145_requests s n steps s' tr : q_member s = true ->
  Forall (fun op => exists a b, op = QStep (length (q_calls s)) a b) steps -> qrun s (QCall n :: steps) = (s', tr) -> call_returned s' (length (q_calls s)) ->
  map pair_of tr = map (fun i => (i, q_pos s i)) (filter (wants s) (seq 0 n)) /\ q_pos s' = q_pos s /\
  forall i, q_com s' i = q_com s i \/ q_com s' i = q_pos s i /\ In (QCommit i (q_pos s i) true) tr.
Proof. exact (alone_sends s n steps s' tr). Qed.
Print Assumptions C145_requests.
(** and answered well: the coordinator has every position, if it had those taken for
    committed before; the next call sends nothing *)
Theorem C145_commits_partial s n steps s' tr before : q_member s = true ->
  Forall (fun op => op = QStep (length (q_calls s)) true true) steps -> qrun s (QCall n :: steps) = (s', tr) -> call_returned s' (length (q_calls s)) ->
  forall i, (i < n)%nat -> 0 <= q_pos s i -> (q_pos s i = q_com s i -> before i = Some (q_com s i)) ->
  stored_from (before i) i tr = Some (q_pos s' i) /\ wants s' i = false.
Proof.
  intros M F E R i L P B. split; [exact (alone_has s n steps s' tr (before i) M F E R i L P B)|].
  destruct (alone_stores s n steps s' tr M F E R i L P) as (C & _ & _). unfold wants. rewrite C, Z.eqb_refl. reflexivity.
Qed.
Print Assumptions C145_commits_partial.

(** the committing goroutine of one consumer: one request if it has moved, otherwise none *)
Theorem C145_ticks s i steps s' tr : q_member s = true ->
  Forall (fun op => op = QStep (length (q_calls s)) true true) steps -> qrun s (QTick i :: steps) = (s', tr) -> call_returned s' (length (q_calls s)) -> 0 <= q_pos s i ->
  tr = (if q_pos s i =? q_com s i then [] else [QCommit i (q_pos s i) true]) /\ q_com s' i = q_pos s i.
Proof. exact (tick_alone s i steps s' tr). Qed.
Print Assumptions C145_ticks.

(** three consumers, the second has not moved, the request for the third fails *)
Definition three : qst := mkQ (fun i => nth i [7; 5; 30] 0) (fun i => nth i [3; 5; 20] 0) true [].
Example C145_example :
  let '(s', tr) := qrun three (QCall 3 :: [QStep 0 true true; QStep 0 true true; QStep 0 true true; QStep 0 true true; QStep 0 true true;
    QStep 0 true true; QStep 0 true true; QStep 0 false false]) in
  tr = [QCommit 0 7 true; QCommit 2 30 false] /\ map (q_com s') [0; 1; 2]%nat = [7; 5; 20] /\ map (wants s') [0; 1; 2]%nat = [false; false; true] /\ returned s'.
Proof. vm_compute. split; [reflexivity|]. split; [reflexivity|]. split; [reflexivity|]. constructor; [reflexivity|constructor]. Qed.

(** the full statement: after a call alone that is answered well the coordinator has the
    position of every consumer.  A new consumer takes 0 for committed, so that the position
    0 is never sent *)
Theorem C145_zero_refuted : exists ops s tr, qrun (qinit (fun _ => 0) true) (QCall 1 :: ops) = (s, tr) /\
  Forall (fun op => op = QStep 0 true true) ops /\ call_returned s 0 /\ q_pos s 0%nat = 0 /\ stored 0 tr = None.
Proof.
  exists [QStep 0 true true; QStep 0 true true; QStep 0 true true; QStep 0 true true]. eexists. eexists. split; [reflexivity|].
  split; [repeat constructor|]. split; [exists QCompare; reflexivity|]. split; reflexivity.
Qed.
Print Assumptions C145_zero_refuted.
(** and two calls that overlap, every request stored and answered well, can leave the
    coordinator with the older offset, while the newer one is taken for committed: no further
    call sends anything until the consumer moves again *)
Definition overlapping : list qop :=
  [QCall 1; QStep 0 true true; QStep 0 true true; QMove 0 9; QTick 0; QStep 1 true true; QStep 1 true true; QStep 1 true true;
   QStep 0 true true; QStep 0 true true; QStep 1 true true].
Theorem C145_overlap_refuted : exists ops s tr, qrun (qinit (fun _ => 5) true) ops = (s, tr) /\
  (forall k a b, In (QStep k a b) ops -> a = true /\ b = true) /\ returned s /\ q_pos s 0%nat = 9 /\ stored 0 tr = Some 5 /\
  forall n steps s' tr', (n <= 1)%nat -> Forall (fun op => exists a b, op = QStep (length (q_calls s)) a b) steps -> qrun s (QCall n :: steps) = (s', tr') ->
    call_returned s' (length (q_calls s)) -> tr' = [].
Proof.
  exists overlapping, (fst (qrun (qinit (fun _ => 5) true) overlapping)), (snd (qrun (qinit (fun _ => 5) true) overlapping)). split; [apply surjective_pairing|].
  split; [intros k a b H; cbn in H; repeat (destruct H as [H|H]; [try discriminate H; injection H as <- <- <-; split; reflexivity|]); destruct H|].
  split; [constructor; [reflexivity|constructor; [reflexivity|constructor]]|]. split; [vm_compute; reflexivity|]. split; [vm_compute; reflexivity|].
  intros n steps s' tr' L F E R. assert (M : q_member (fst (qrun (qinit (fun _ => 5) true) overlapping)) = true) by (vm_compute; reflexivity).
  destruct (alone_sends _ n steps s' tr' M F E R) as (S & _ & _).
  assert (W : filter (wants (fst (qrun (qinit (fun _ => 5) true) overlapping))) (seq 0 n) = []).
  { destruct n as [|[|]]; [reflexivity|vm_compute; reflexivity|lia]. }
  rewrite W in S. destruct tr'; [reflexivity|discriminate S].
Qed.
Print Assumptions C145_overlap_refuted.

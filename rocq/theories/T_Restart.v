(** C97, C142: nothing is lost when consumers of a group stop and others resume. *)
From Verif Require Import Base BaseFacts Wire RecordSpec Records RecordFacts Responses Fetch FetchSpec FetchFacts FetchKeep DeliverFacts FetchShort FetchRefute Consumer ConsumerSpec ConsumerFacts ConsumerRefute T_Consumer RestartSpec RestartFacts.

(** *** C97 *)
(** Guards: as for C38 ([fields_ok] in [honest]), and no consumer's position was reset
    after an out-of-range error.  Commits may fail, be lost or overtake one another. *)
Theorem C97_at_least_once_partial : forall unzip zip topic pid first L xs,
  log_ok unzip L -> group_history unzip zip topic pid first L xs ->
  forall x v m, In x xs -> v = position (ss_pos x) (ss_trace x) \/ In v (commits (ss_trace x)) ->
  In m (log_msgs L) -> first <= m_offset m < v -> exists y, In y xs /\ In m (msgs (ss_trace y)).
Proof. exact at_least_once. Qed.
Print Assumptions C97_at_least_once_partial.

(** Two consumers: the first, of a log of three messages, hands out 5 and 6 and commits 5,
    6 and 7, but the coordinator loses the last commit; the second starts at 6, when the
    log has grown. *)
Definition lead97 : list (option leaderTry) := [Some (mkLT (Ok 2) true true)].
Definition none97 : response := ROffsetFetch 1 [([116], [(3, (-1, ([], 0)))])].
Definition some97 : response := ROffsetFetch 1 [([116], [(3, (6, ([], 0)))])].
Definition t97a : list tev := [TFetch 5 1000; TMsg [116] 3 (m567 5 1); TCommit 5 false; TMsg [116] 3 (m567 6 2); TCommit 6 true; TCommit 7 true].
Definition evs69 : list event := [EvMsg [116] 3 (m567 6 2); EvMsg [116] 3 (m567 7 3); EvMsg [116] 3 (m567 8 4); EvMsg [116] 3 (m567 9 5)].
Definition ops97 : list cop :=
  [OFetch (Ok evs69); ONext (Err ETimeout) []; OAdvance; ONext (Err ETimeout) []; OAdvance; ONext (Err ETimeout) []; OAdvance; ONext (Err ETimeout) []; OAdvance; OCommit; OSent 0 true true].
Definition t97b : list tev := [TFetch 6 1000; TMsg [116] 3 (m567 6 2); TMsg [116] 3 (m567 7 3); TMsg [116] 3 (m567 8 4); TMsg [116] 3 (m567 9 5); TCommit 10 true].
Definition end97 (st : Z) (from : bool) (ops : list cop) : cst := match crun cfgg (cinit st from 1000) ops with Ok (s, _) => s | _ => cinit 0 false 0 end.
Definition s97a : session := mkSess cfgg [b567] true lead97 [Err ETimeout; Ok none97] [Some (Ok (offs 5))] 5 true 1000 run39 (end97 5 true run39) t97a.
Definition s97b : session := mkSess cfgg [b567; b89] true lead97 [Ok some97] [] 6 true 1000 ops97 (end97 6 true ops97) t97b.
Lemma honest69 : honest err0 err0 [116] 3 [b567; b89] 6 (Ok evs69).
Proof.
  eapply (H_data _ _ _ _ _ _ 7 whole [] [b567; b89] [] 1000 [] [enc_presp 7 whole] EPipe);
    [reflexivity|constructor|auto|exact whole_wf|reflexivity|reflexivity|vm_compute; reflexivity|vm_compute; reflexivity| |vm_compute; reflexivity].
  apply fields_ok_one. vm_compute. lia.
Qed.
Example C97_ex : group_history err0 err0 [116] 3 5 [b567; b89] [s97a; s97b] /\
  log_msgs [b567; b89] = [m567 5 1; m567 6 2; m567 7 3; m567 8 4; m567 9 5] /\
  map (fun x => (commits (ss_trace x), map m_offset (msgs (ss_trace x)))) [s97a; s97b] = [([5; 6; 7], [5; 6]); ([10], [6; 7; 8; 9])].
Proof.
  split; [|split; vm_compute; reflexivity].
  intros [|[|[|i]]] x Hi; cbn [nth_error] in Hi; try discriminate; injection Hi as <-.
  - split; [repeat split; auto|]. split.
    { split; [|split; [vm_compute; reflexivity|reflexivity]].
      eapply honest_cons; [vm_compute; reflexivity|exact honest567|]. do 10 (eapply honest_cons; [vm_compute; reflexivity|exact I|]). exact I. }
    split; [exists [b89]; reflexivity|]. right. split.
    + right. exists [Err ETimeout], none97, [], (-1). repeat split; auto.
      * repeat constructor. eexists. reflexivity.
      * do 3 eexists. reflexivity.
    + exists [], (offs 5), []. repeat split; [constructor|]. do 4 eexists. split; [reflexivity|left; reflexivity].
  - split; [repeat split; auto|]. split.
    { split; [|split; [vm_compute; reflexivity|reflexivity]].
      eapply honest_cons; [vm_compute; reflexivity|exact honest69|]. do 10 (eapply honest_cons; [vm_compute; reflexivity|exact I|]). exact I. }
    split; [exists []; reflexivity|]. left. exists [], some97, [], 6, s97a. repeat split; auto; [|lia| |].
    + do 3 eexists. reflexivity.
    + left. reflexivity.
    + vm_compute. auto.
Qed.

(** Finding (the one of C38): when the size of the record set arrives in two reads, the
    consumer commits an offset beyond messages of the log that it has not handed out; whoever
    resumes there never sees them. *)
Theorem C97_committed_undelivered_refuted : exists L p a b evs s s' t v m,
  log_ok err0 L /\ wf_presp p /\ pr_records p = flat_map enc_wb L /\ enc_presp 10 p = a ++ b /\
  streamDecode err0 err0 10 1 (zlen (enc_presp 10 p)) (mkStream [a; b] ETimeout) = Ok (evs, s) /\
  crun cfgg (cinit 1 false 1000) [OFetch (Ok evs); ONext (Err ETimeout) []; OAdvance; OCommit; OSent 0 true true] = Ok (s', t) /\
  resets t = [] /\ In v (commits t) /\ In m (log_msgs L) /\ 1 <= m_offset m < v /\ ~ In m (msgs t).
Proof.
  exists [sw], sp, (firstn 62 (enc_presp 10 sp)), (skipn 62 (enc_presp 10 sp)).
  eexists _, _, _, _, 504403158265495553, _. split; [exact sw_ok|]. split; [exact sp_ok|]. split; [reflexivity|]. split; [symmetry; apply firstn_skipn|].
  split; [vm_compute; reflexivity|]. split; [vm_compute; reflexivity|]. split; [reflexivity|]. split; [left; reflexivity|].
  split; [left; reflexivity|]. split; [vm_compute; split; congruence|]. intros H. vm_compute in H. destruct H as [H|H]; [discriminate H|exact H].
Qed.
Print Assumptions C97_committed_undelivered_refuted.

(** *** C142 *)
(** Guards: as for C97; and only the first consumer finds nothing committed. *)
Theorem C142_late_partial : forall unzip zip topic pid L x0 xs, log_ok unzip L -> late_history unzip zip topic pid L (x0 :: xs) ->
  (forall i x, nth_error xs i = Some x -> resumed topic pid (x0 :: firstn i xs) x) ->
  forall x v m, In x (x0 :: xs) -> v = position (ss_pos x) (ss_trace x) \/ In v (commits (ss_trace x)) ->
  In m (log_msgs L) -> ss_pos x0 <= m_offset m < v -> exists y, In y (x0 :: xs) /\ In m (msgs (ss_trace y)).
Proof. exact late_at_least_once. Qed.
Print Assumptions C142_late_partial.
(** wherever a consumer of such a group starts: at an offset that an earlier one committed or at the end of the log of then *)
Theorem C142_start_partial : forall unzip zip topic pid L xs i x, late_history unzip zip topic pid L xs -> nth_error xs i = Some x ->
  (exists y, In y (firstn i xs) /\ In (ss_pos x) (commits (ss_trace y))) \/ at_end (ss_log x) (ss_pos x).
Proof. exact late_start. Qed.
Print Assumptions C142_start_partial.

(** The first consumer starts when the log is empty, hands out 5 and 6 and commits; the second goes on from there. *)
Definition s142a : session := mkSess cfgg [b567] false lead97 [Err ETimeout; Ok none97] [Some (Ok (offs 5))] 5 false 1000 run39 (end97 5 false run39) t97a.
Definition s142b : session := mkSess cfgg [b567; b89] false lead97 [Ok some97] [] 6 false 1000 ops97 (end97 6 false ops97) t97b.
Lemma resumed142 : resumed [116] 3 [s142a] s142b.
Proof.
  exists [], some97, [], 6, s142a. repeat split; auto; [|lia| |].
  - do 3 eexists. reflexivity.
  - left. reflexivity.
  - vm_compute. auto.
Qed.
Lemma nothing142 : no_commit cfgg [Err ETimeout; Ok none97].
Proof.
  right. exists [Err ETimeout], none97, [], (-1). repeat split; auto.
  - repeat constructor. eexists. reflexivity.
  - do 3 eexists. reflexivity.
Qed.
Example C142_ex : late_history err0 err0 [116] 3 [b567; b89] [s142a; s142b] /\ resumed [116] 3 [s142a] s142b /\
  map (fun x => (ss_pos x, commits (ss_trace x), map m_offset (msgs (ss_trace x)))) [s142a; s142b] = [(5, [5; 6; 7], [5; 6]); (6, [10], [6; 7; 8; 9])].
Proof.
  split; [|split; [exact resumed142|vm_compute; reflexivity]].
  intros [|[|[|i]]] x Hi; cbn [nth_error] in Hi; try discriminate; injection Hi as <-.
  - split; [repeat split; auto|]. split.
    { split; [|split; [vm_compute; reflexivity|reflexivity]].
      eapply honest_cons; [vm_compute; reflexivity|exact honest567|]. do 10 (eapply honest_cons; [vm_compute; reflexivity|exact I|]). exact I. }
    split; [exists [b89]; reflexivity|]. right. split; [exact nothing142|].
    exists [], (offs 5), [], 5. repeat split; [constructor|do 4 eexists; split; [reflexivity|left; reflexivity]|].
    exists [], [b567]. split; [reflexivity|]. split; [intros m []|]. intros m H. vm_compute in H. repeat (destruct H as [<-|H]; [cbn; lia|]). destruct H.
  - split; [repeat split; auto|]. split.
    { split; [|split; [vm_compute; reflexivity|reflexivity]].
      eapply honest_cons; [vm_compute; reflexivity|exact honest69|]. do 10 (eapply honest_cons; [vm_compute; reflexivity|exact I|]). exact I. }
    split; [exists []; reflexivity|]. left. exact resumed142.
Qed.

(** Finding: the end of the log is looked up again by every consumer of the partition until one has committed.  The
    first starts at 5 and is stopped before it has fetched anything (the partition is given to another member, say);
    the messages 5, 6 and 7 arrive; the second, too, finds nothing committed and starts at the end, now 8: the three
    messages, which came when the group was consuming, are handed out by nobody, and 10 is committed. *)
Definition ops142 : list cop := [OFetch (Ok evs89); ONext (Err ETimeout) []; OAdvance; ONext (Err ETimeout) []; OAdvance; OCommit; OSent 0 true true].
Definition s142c : session := mkSess cfgg [] false lead97 [Ok none97] [Some (Ok (offs 5))] 5 false 1000 [] (cinit 5 false 1000) [].
Definition t142d : list tev := [TFetch 8 1000; TMsg [116] 3 (m567 8 4); TMsg [116] 3 (m567 9 5); TCommit 10 true].
Definition s142d : session := mkSess cfgg [b567; b89] false lead97 [Ok none97] [Some (Ok (offs 8))] 8 false 1000 ops142 (end97 8 false ops142) t142d.
Theorem C142_lost_refuted : exists L x0 x1 m, log_ok err0 L /\ late_history err0 err0 [116] 3 L [x0; x1] /\
  In m (log_msgs L) /\ ss_pos x0 <= m_offset m < position (ss_pos x1) (ss_trace x1) /\ In (position (ss_pos x1) (ss_trace x1)) (commits (ss_trace x1)) /\
  forall y, In y [x0; x1] -> ~ In m (msgs (ss_trace y)).
Proof.
  assert (N : no_commit cfgg [Ok none97]).
  { right. exists [], none97, [], (-1). repeat split; auto. do 3 eexists. reflexivity. }
  exists [b567; b89], s142c, s142d, (m567 6 2). split; [exact C38_ex_log|]. split.
  - intros [|[|[|i]]] x Hi; cbn [nth_error] in Hi; try discriminate; injection Hi as <-.
    + split; [repeat split; auto|]. split; [split; [exact I|split; reflexivity]|]. split; [exists [b567; b89]; reflexivity|]. right. split; [exact N|].
      exists [], (offs 5), [], 5. repeat split; [constructor|do 4 eexists; split; [reflexivity|left; reflexivity]|].
      exists [], []. split; [reflexivity|]. split; intros m [].
    + split; [repeat split; auto|]. split.
      { split; [|split; [vm_compute; reflexivity|reflexivity]].
        eapply honest_cons; [vm_compute; reflexivity|exact honest_later|]. do 6 (eapply honest_cons; [vm_compute; reflexivity|exact I|]). exact I. }
      split; [exists []; reflexivity|]. right. split; [exact N|].
      exists [], (offs 8), [], 8. repeat split; [constructor|do 4 eexists; split; [reflexivity|left; reflexivity]|].
      exists [b567], [b89]. split; [reflexivity|]. split; intros m H; vm_compute in H; repeat (destruct H as [<-|H]; [cbn; lia|]); destruct H.
  - split; [vm_compute; auto|]. split; [vm_compute; split; congruence|]. split; [vm_compute; auto|].
    intros y [<-|[<-|[]]] H; vm_compute in H; repeat (destruct H as [H|H]; [discriminate H|]); destruct H.
Qed.
Print Assumptions C142_lost_refuted.

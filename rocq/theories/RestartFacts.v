(** Proofs about successive consumers of a partition. *)
From Verif Require Import Base BaseFacts Responses Records Fetch FetchSpec Consumer ConsumerSpec ConsumerFacts RestartSpec.

Lemma log_msgs_app a b : log_msgs (a ++ b) = log_msgs a ++ log_msgs b.
Proof. apply flat_map_app. Qed.
Lemma sorted_app {A} (R : A -> A -> Prop) : forall a b, StronglySorted R (a ++ b) ->
  StronglySorted R a /\ StronglySorted R b /\ forall x y, In x a -> In y b -> R x y.
Proof.
  induction a as [|z a IH]; intros b H; cbn [app] in H.
  - split; [constructor|]. split; [exact H|]. intros x y [].
  - inversion H as [|? ? H1 H2]; subst. destruct (IH b H1) as (A1 & A2 & A3). rewrite Forall_app in H2. destruct H2 as [H2 H3].
    split; [constructor; assumption|]. split; [exact A2|]. intros x y [->|Hx] Hy; [rewrite Forall_forall in H3; apply H3, Hy|apply A3; assumption].
Qed.
Lemma log_ok_app unzip a b : log_ok unzip (a ++ b) -> log_ok unzip a /\ (forall x y, In x (log_msgs a) -> In y (log_msgs b) -> m_offset x < m_offset y).
Proof.
  intros (H1 & H2 & H3 & H4). rewrite log_msgs_app in *. apply Forall_app in H1, H2, H4.
  destruct (sorted_app _ _ _ H3) as (A1 & _ & A3). split; [|exact A3]. repeat split; first [apply H1|apply H2|exact A1|apply H4].
Qed.

Lemma segment_plain : forall t start l, resets t = [] -> fold_left seg t (start, l) = (start, l ++ msgs t).
Proof.
  induction t as [|e t IH]; intros start l Hr.
  - cbn. rewrite app_nil_r. reflexivity.
  - destruct e as [o mx|tp p m|w o|o ok]; cbn [fold_left seg fst snd].
    + apply IH. exact Hr.
    + rewrite IH by exact Hr. change (msgs (TMsg tp p m :: t)) with (m :: msgs t). rewrite <- app_assoc. reflexivity.
    + discriminate Hr.
    + apply IH. exact Hr.
Qed.
Lemma position_bound topic pid D y : (forall m, In m D -> m_offset m < y) -> forall t pos, in_order topic pid D pos t -> resets t = [] ->
  pos <= y -> position pos t <= y.
Proof.
  intros HD. induction t as [|e t IH]; intros pos Ho Hr Hp; [exact Hp|].
  destruct e as [o mx|tp p m|w o|o ok]; cbn [in_order] in Ho; change (position pos (?y :: t)) with (position (move pos y) t); cbn [move].
  - apply IH; [apply Ho|exact Hr|exact Hp].
  - destruct Ho as (_ & _ & Hn & Ho). apply IH; [exact Ho|exact Hr|]. unfold next_msg in Hn. apply find_some in Hn. destruct Hn as [Hin _].
    pose proof (HD m Hin). lia.
  - discriminate Hr.
  - apply IH; [exact Ho|exact Hr|exact Hp].
Qed.
Lemma resets_app a b : resets (a ++ b) = resets a ++ resets b.
Proof. apply flat_map_app. Qed.
Lemma msgs_app a b : msgs (a ++ b) = msgs a ++ msgs b.
Proof. apply flat_map_app. Qed.
Lemma commit_split v : forall t, In v (commits t) -> exists t1 ok t2, t = t1 ++ TCommit v ok :: t2.
Proof.
  induction t as [|e t IH]; intros H; [contradiction|]. unfold commits in H. cbn [flat_map] in H. apply in_app_or in H. destruct H as [H|H].
  - destruct e; cbn in H; try contradiction. destruct H as [->|[]]. exists [], ok, t. reflexivity.
  - destruct (IH H) as (t1 & ok & t2 & ->). exists (e :: t1), ok, t2. reflexivity.
Qed.

(** Consumers that start at [first] or at an offset that an earlier one committed. *)
Section Resumed.
Variables (unzip zip : Z -> bytes -> res bytes) (first : Z) (L : list wbatch) (xs : list session).
Hypothesis HL : log_ok unzip L.
Hypothesis Hh : forall i x, nth_error xs i = Some x -> honest_session unzip zip x /\ prefix (ss_log x) L /\
  (ss_pos x = first \/ exists y, In y (firstn i xs) /\ In (ss_pos x) (commits (ss_trace y))).

Definition delivered_upto (i : nat) (v : Z) : Prop :=
  forall m, In m (log_msgs L) -> first <= m_offset m < v -> exists y, In y (firstn (S i) xs) /\ In m (msgs (ss_trace y)).

Lemma firstn_in {A} (l : list A) : forall i j x, (i <= j)%nat -> In x (firstn i l) -> In x (firstn j l).
Proof.
  induction l as [|y l IH]; intros i j x Hij H; [destruct i; contradiction|].
  destruct i as [|i]; [contradiction|]. destruct j as [|j]; [lia|]. cbn [firstn] in *. destruct H as [->|H]; [left; reflexivity|right]. apply (IH i j); [lia|exact H].
Qed.

Lemma delivered_prefixes : forall i x, nth_error xs i = Some x -> forall a b, ss_trace x = a ++ b -> delivered_upto i (position (ss_pos x) a).
Proof.
  intros i. induction i as [i IH] using lt_wf_ind. intros x Hi a b Et m Hm Hr.
  destruct (Hh i x Hi) as ((Hhr & Hrun & Hres) & (rest & EL) & Hst).
  pose proof HL as HL'. rewrite EL in HL'. destruct (log_ok_app _ _ _ HL') as [HLx Hafter].
  pose proof (consumer_in_order unzip zip _ _ _ _ _ _ _ _ HLx Hhr Hrun) as Ho. rewrite Et in Ho. apply in_order_app in Ho. destruct Ho as [Ho _].
  assert (Hra : resets a = []) by (rewrite Et, resets_app in Hres; apply app_eq_nil in Hres; apply Hres).
  assert (Hself : In x (firstn (S i) xs)).
  { clear -Hi. revert xs Hi. induction i as [|i IHi]; intros [|y l] Hi; try discriminate; cbn [nth_error] in Hi.
    - injection Hi as ->. left; reflexivity.
    - cbn [firstn]. right. apply (IHi l Hi). }
  destruct (Z.lt_ge_cases (m_offset m) (ss_pos x)) as [Hlt|Hge].
  - (* before the start: an earlier consumer *)
    destruct Hst as [Hf|(y & Hy & Hc)]; [lia|].
    apply In_nth_error in Hy. destruct Hy as [j Hj].
    assert (Hji : (j < i)%nat).
    { assert (j < length (firstn i xs))%nat by (apply nth_error_Some; congruence). rewrite firstn_length in *. lia. }
    assert (Hj' : nth_error xs j = Some y).
    { rewrite <- (firstn_skipn i xs). rewrite nth_error_app1; [exact Hj|]. apply nth_error_Some. congruence. }
    destruct (commit_split _ _ Hc) as (t1 & ok & t2 & Ety).
    destruct (Hh j y Hj') as ((Hhr' & Hrun' & Hres') & (rest' & EL') & _).
    pose proof HL as HL2. rewrite EL' in HL2. destruct (log_ok_app _ _ _ HL2) as [HLy _].
    destruct (consumer_committed_delivered unzip zip _ _ _ _ _ _ _ _ HLy Hhr' Hrun' t1 (ss_pos x) ok t2 Ety) as (a' & [b' Eb'] & Ev & _).
    destruct (IH j Hji y Hj' a' (b' ++ TCommit (ss_pos x) ok :: t2)) with (m := m) as (z & Hz & Hmz).
    + rewrite Ety, Eb', <- app_assoc. reflexivity.
    + exact Hm.
    + rewrite <- Ev. lia.
    + exists z. split; [apply (firstn_in xs (S j) (S i)); [lia|exact Hz]|exact Hmz].
  - (* since the start: this consumer *)
    rewrite EL, log_msgs_app in Hm. apply in_app_or in Hm. destruct Hm as [Hm|Hm].
    + exists x. split; [exact Hself|]. rewrite Et, msgs_app. apply in_or_app. left.
      pose proof HLx as (_ & _ & HS & _).
      pose proof (segment_complete _ _ _ HS a (ss_pos x) (ss_pos x, []) Ho) as X. rewrite (segment_plain _ _ _ Hra) in X. cbn [fst snd app] in X.
      apply X; [intros; lia|exact Hm|lia].
    + exfalso. pose proof (position_bound _ _ _ (m_offset m) (fun m' Hm' => Hafter m' m Hm' Hm) a _ Ho Hra Hge). lia.
Qed.

Theorem handed_out x v m : In x xs -> v = position (ss_pos x) (ss_trace x) \/ In v (commits (ss_trace x)) ->
  In m (log_msgs L) -> first <= m_offset m < v -> exists y, In y xs /\ In m (msgs (ss_trace y)).
Proof.
  intros Hx Hv Hm Hr. apply In_nth_error in Hx. destruct Hx as [i Hi].
  assert (Hin : forall n (y : session), In y (firstn n xs) -> In y xs) by (intros n y Hy; rewrite <- (firstn_skipn n xs); apply in_or_app; left; exact Hy).
  destruct Hv as [->|Hc].
  - destruct (delivered_prefixes i x Hi (ss_trace x) [] (eq_sym (app_nil_r _)) m Hm Hr) as (y & Hy & Hmy). exists y. split; [apply (Hin _ _ Hy)|exact Hmy].
  - destruct (commit_split _ _ Hc) as (t1 & ok & t2 & Et).
    destruct (Hh i x Hi) as ((Hhr' & Hrun' & Hres') & (rest' & EL') & _).
    pose proof HL as HL2. rewrite EL' in HL2. destruct (log_ok_app _ _ _ HL2) as [HLy _].
    destruct (consumer_committed_delivered unzip zip _ _ _ _ _ _ _ _ HLy Hhr' Hrun' t1 v ok t2 Et) as (a' & [b' Eb'] & Ev & _).
    destruct (delivered_prefixes i x Hi a' (b' ++ TCommit v ok :: t2)) with (m := m) as (y & Hy & Hmy).
    + rewrite Et, Eb', <- app_assoc. reflexivity.
    + exact Hm.
    + rewrite <- Ev. exact Hr.
    + exists y. split; [apply (Hin _ _ Hy)|exact Hmy].
Qed.
End Resumed.

(** where a consumer of a group starts *)
Lemma session_start unzip zip topic pid first L xs i x : group_history unzip zip topic pid first L xs -> nth_error xs i = Some x ->
  ss_pos x = first \/ exists y, In y (firstn i xs) /\ In (ss_pos x) (commits (ss_trace y)).
Proof.
  intros Hh Hi. destruct (Hh i x Hi) as ((K1 & K2 & K3 & K4 & K5 & K6) & _ & _ & R). destruct R as [(fs & r & rest & o & y & E & Hf & Hr & Ho & Hy & Hc)|(Hn & fo & r & rest & E & Hf & Hr)].
  - right. exists y. split; [exact Hy|]. rewrite E in K6. subst topic pid.
    rewrite (start_committed _ _ (-2) _ _ _ _ _ o K5 K3 K4 (or_intror eq_refl) Hf Hr Ho) in K6. injection K6 as -> _. exact Hc.
  - left. rewrite E in K6. subst topic pid. rewrite (start_from_log _ _ (-2) _ _ _ _ _ first K5 (or_intror eq_refl) Hn Hf Hr) in K6. congruence.
Qed.
Theorem at_least_once unzip zip topic pid first L xs : log_ok unzip L -> group_history unzip zip topic pid first L xs ->
  forall x v m, In x xs -> v = position (ss_pos x) (ss_trace x) \/ In v (commits (ss_trace x)) ->
  In m (log_msgs L) -> first <= m_offset m < v -> exists y, In y xs /\ In m (msgs (ss_trace y)).
Proof.
  intros HL Hh. apply (handed_out unzip zip first L xs HL). intros i x Hi. destruct (Hh i x Hi) as (_ & A & B & _).
  split; [exact A|]. split; [exact B|]. exact (session_start _ _ _ _ _ _ _ _ _ Hh Hi).
Qed.

(** ** Groups that start at the end of the log *)
Lemma late_start unzip zip topic pid L xs i x : late_history unzip zip topic pid L xs -> nth_error xs i = Some x ->
  (exists y, In y (firstn i xs) /\ In (ss_pos x) (commits (ss_trace y))) \/ at_end (ss_log x) (ss_pos x).
Proof.
  intros Hh Hi. destruct (Hh i x Hi) as ((K1 & K2 & K3 & K4 & K5 & K6) & _ & _ & R). destruct R as [(fs & r & rest & o & y & E & Hf & Hr & Ho & Hy & Hc)|(Hn & fo & r & rest & n & E & Hf & Hr & Hx)].
  - left. exists y. split; [exact Hy|]. rewrite E in K6. subst topic pid.
    rewrite (start_committed _ _ (-1) _ _ _ _ _ o K5 K3 K4 (or_introl eq_refl) Hf Hr Ho) in K6. injection K6 as -> _. exact Hc.
  - right. rewrite E in K6. subst topic pid. rewrite (start_from_log _ _ (-1) _ _ _ _ _ n K5 (or_introl eq_refl) Hn Hf Hr) in K6. injection K6 as -> _. exact Hx.
Qed.
Theorem late_at_least_once unzip zip topic pid L x0 xs : log_ok unzip L -> late_history unzip zip topic pid L (x0 :: xs) ->
  (forall i x, nth_error xs i = Some x -> resumed topic pid (x0 :: firstn i xs) x) ->
  forall x v m, In x (x0 :: xs) -> v = position (ss_pos x) (ss_trace x) \/ In v (commits (ss_trace x)) ->
  In m (log_msgs L) -> ss_pos x0 <= m_offset m < v -> exists y, In y (x0 :: xs) /\ In m (msgs (ss_trace y)).
Proof.
  intros HL Hh Hr. apply (handed_out unzip zip (ss_pos x0) L (x0 :: xs) HL). intros i x Hi. destruct (Hh i x Hi) as (G & A & B & _).
  split; [exact A|]. split; [exact B|]. destruct i as [|i]; cbn [nth_error] in Hi; [injection Hi as ->; left; reflexivity|]. right.
  destruct (Hr i x Hi) as (fs & r & rest & o & y & E & Hf & Hr' & Ho & Hy & Hc). exists y. split; [exact Hy|].
  destruct G as (K1 & K2 & K3 & K4 & K5 & K6). rewrite E in K6. subst topic pid.
  rewrite (start_committed _ _ (-1) _ _ _ _ _ o K5 K3 K4 (or_introl eq_refl) Hf Hr' Ho) in K6. injection K6 as -> _. exact Hc.
Qed.

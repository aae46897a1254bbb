(** How long closing takes (C129), and how long a member that has to rejoin keeps silent (C130). *)
From Verif Require Import Base CloseTime.
From Coq Require Import Lia.

(** ** Specification *)

(** a call made at [t] returned by [t + timeout] *)
Definition in_time (t timeout : Z) (r : option Z) : Prop := exists t', r = Some t' /\ t' <= t + timeout.
(** one is never busy for longer than [m] in a piece *)
Definition short (m : Z) (l : busy) : Prop := Forall (fun x => exists b, snd x = Some b /\ b <= fst x + m) l.
(** an idle partition: [n] fetches, each
    answered, with nothing, after exactly [w] *)
Definition idle (w : Z) (n : nat) : list (option Z * Z) := repeat (Some w, 0) n.

(** ** Proofs *)

Lemma free_at_ge l : forall t t', free_at l t = Some t' -> t <= t'.
Proof.
  induction l as [|[a [b|]] l IH]; cbn [free_at]; intros t t' H.
  - injection H as <-. lia.
  - destruct (a <=? t) eqn:E1, (t <? b) eqn:E2; cbn [andb] in H; try (apply IH; exact H).
    injection H as <-. apply Z.ltb_lt in E2. lia.
  - destruct (a <=? t); [discriminate|apply IH; exact H].
Qed.
Lemma free_at_short m l : 0 <= m -> short m l -> forall t, exists t', free_at l t = Some t' /\ t <= t' <= t + m.
Proof.
  intros Hm Hs. induction l as [|[a o] l IH]; intros t.
  - exists t. split; [reflexivity|lia].
  - inversion Hs as [|x y (b & Hb & Hle) Hl]. subst. cbn [fst snd] in Hb, Hle. subst o. cbn [free_at].
    destruct (a <=? t) eqn:E1; cbn [andb]; [|apply IH; exact Hl].
    destruct (t <? b) eqn:E2; cbn [andb]; [|apply IH; exact Hl].
    exists b. apply Z.leb_le in E1. apply Z.ltb_lt in E2. split; [reflexivity|lia].
Qed.
Lemma stop_all_ge l : forall t t', stop_all l t = Some t' -> t <= t'.
Proof.
  induction l as [|b l IH]; cbn [stop_all]; intros t t' H; [injection H as <-; lia|].
  destruct (free_at b t) as [u|] eqn:E; [|discriminate]. apply free_at_ge in E. apply IH in H. lia.
Qed.
Lemma stop_all_short m l : 0 <= m -> Forall (short m) l ->
  forall t, exists t', stop_all l t = Some t' /\ t <= t' <= t + Z.of_nat (length l) * m.
Proof.
  intros Hm Hs. induction l as [|b l IH]; intros t.
  - exists t. split; [reflexivity|cbn [length]; lia].
  - inversion Hs as [|x y Hb Hl]. subst. destruct (free_at_short m b Hm Hb t) as (u & Hu & Hle).
    destruct (IH Hl u) as (t' & Ht' & Hle'). exists t'. cbn [stop_all]. rewrite Hu. split; [exact Ht'|].
    cbn [length]. lia.
Qed.
Lemma fetches_short timeout backoff l : 0 < timeout -> 0 <= backoff -> forall t, short (timeout + backoff) (fetches timeout backoff l t).
Proof.
  intros Ht Hb. assert (Hp : (0 <? timeout) = true) by (apply Z.ltb_lt; exact Ht).
  assert (Hq : (timeout <=? 0) = false) by (apply Z.leb_gt; exact Ht).
  induction l as [|[[d|] h] l IH]; intros t; cbn [fetches]; [constructor| |].
  - rewrite Hq. cbn [orb]. destruct (d <? timeout) eqn:E.
    + apply Z.ltb_lt in E. constructor; [|apply IH]. exists (t + d). cbn [fst snd]. split; [reflexivity|lia].
    + rewrite Hp. constructor; [|apply IH]. exists (t + timeout + backoff). cbn [fst snd]. split; [reflexivity|lia].
  - rewrite Hp. constructor; [|apply IH]. exists (t + timeout + backoff). cbn [fst snd]. split; [reflexivity|lia].
Qed.

(** C129: a call of AwaitClose does return, when the fetches have a read deadline: after at
    most one deadline and one backoff for every partition consumer, and the timeout. *)
Theorem C129_returns : forall deadline backoff timeout shut ls t,
  0 < deadline -> 0 <= backoff -> 0 <= timeout ->
  exists t', await_close timeout shut (map (fun x => fetches deadline backoff (fst x) (snd x)) ls) t = Some t' /\
    t' <= t + Z.of_nat (length ls) * (deadline + backoff) + timeout.
Proof.
  intros deadline backoff timeout shut ls t Hd Hb Ht.
  destruct (stop_all_short (deadline + backoff) (map (fun x => fetches deadline backoff (fst x) (snd x)) ls)) with (t := t)
    as (u & Hu & Hle); [lia| |].
  - apply Forall_forall. intros x Hx. apply in_map_iff in Hx. destruct Hx as (y & <- & _). apply fetches_short; assumption.
  - rewrite map_length in Hle. unfold await_close. rewrite Hu. eexists. split; [reflexivity|]. lia.
Qed.
Print Assumptions C129_returns.

(** C129, as it would be if stopping were part of what the timeout limits. *)
Definition C129_statement : Prop := forall timeout shut ls t, 0 <= timeout -> in_time t timeout (await_close timeout shut ls t).

(** C129: it does so within the timeout if no partition consumer waits for a fetch. *)
Theorem C129_in_time_partial : forall timeout shut ls t, 0 <= timeout ->
  Forall (fun l => Forall (fun x => t < fst x \/ exists b, snd x = Some b /\ b <= t) l) ls ->
  in_time t timeout (await_close timeout shut ls t).
Proof.
  intros timeout shut ls t Ht H.
  assert (E : stop_all ls t = Some t).
  { induction H as [|l ls Hl Hls IH]; [reflexivity|]. cbn [stop_all].
    replace (free_at l t) with (Some t); [exact IH|].
    symmetry. induction Hl as [|[a o] l Hx Hl IHl]; [reflexivity|]. cbn [free_at fst snd] in *.
    destruct Hx as [Hx|(b & -> & Hb)].
    - assert ((a <=? t) = false) as -> by (apply Z.leb_gt; lia). destruct o; exact IHl.
    - assert ((t <? b) = false) as -> by (apply Z.ltb_ge; lia). rewrite Bool.andb_false_r. exact IHl. }
  unfold await_close. rewrite E. eexists. split; [reflexivity|lia].
Qed.
Print Assumptions C129_in_time_partial.
Example C129_in_time_ex : await_close 30000 20 [fetches 30500 500 [(Some 300, 9700); (Some 500, 0)] 0; []] 5000 = Some 5020.
Proof. reflexivity. Qed.

(** C129: the timeout makes no difference to when the partition consumers have ended, and no
    call returns before that: whatever the timeout is. *)
Theorem C129_not_limited : forall timeout shut ls t u, 0 <= timeout -> 0 <= shut ->
  stop_all ls t = Some u ->
  exists t', await_close timeout shut ls t = Some t' /\ u <= t' <= u + timeout.
Proof.
  intros timeout shut ls t u Ht Hs H. unfold await_close. rewrite H. eexists. split; [reflexivity|lia].
Qed.
Print Assumptions C129_not_limited.

(** the [k]th of the idle partitions began a fetch when the one before it ended *)
Fixpoint staggered (w : Z) (n : nat) (t : Z) : list busy :=
  match n with O => [] | S m => fetches 30500 500 (idle w 2) t :: staggered w m (t + w) end.
Lemma staggered_stop w n : 0 < w < 30500 -> forall t, stop_all (staggered w n t) t = Some (t + Z.of_nat n * w).
Proof.
  intros Hw. induction n as [|n IH]; intros t; cbn [staggered stop_all]; [f_equal; lia|].
  replace (free_at (fetches 30500 500 (idle w 2) t) t) with (Some (t + w)).
  - rewrite IH. f_equal. lia.
  - unfold idle. cbn [repeat fetches]. assert ((w <? 30500) = true) as -> by (apply Z.ltb_lt; lia).
    change (30500 <=? 0) with false. cbn [orb free_at]. rewrite Z.leb_refl.
    assert ((t <? t + w) = true) as -> by (apply Z.ltb_lt; lia). reflexivity.
Qed.

(** C129, refuted: with the settings of DefaultConsumerConfig (fetch.max.wait.ms 500) closing a
    consumer of [n] idle partitions may take 500 n milliseconds. *)
Theorem C129_idle_refuted : forall n timeout, 0 <= timeout ->
  exists ls, length ls = n /\ Forall (short 500) ls /\
    exists t', await_close timeout 0 ls 0 = Some t' /\ t' = 500 * Z.of_nat n.
Proof.
  intros n timeout Ht. exists (staggered 500 n 0). split; [|split].
  - generalize 0 at 1. induction n as [|n IH]; intros t; cbn [staggered length]; [reflexivity|rewrite IH; reflexivity].
  - generalize 0 at 1. induction n as [|n IH]; intros t; cbn [staggered]; constructor; [|apply IH].
    unfold idle, short. cbn. repeat constructor; eexists; (split; [reflexivity|cbn [fst]; lia]).
  - unfold await_close. rewrite staggered_stop by lia. eexists. split; [reflexivity|]. lia.
Qed.
Print Assumptions C129_idle_refuted.

(** C129, refuted: the 30 seconds of Close do not limit it, with 61 idle partitions nor with
    one leader that does not answer; and a fetch without a read deadline never lets it return. *)
Theorem C129_refuted : ~ C129_statement.
Proof.
  intros H. destruct (H 30000 0 (staggered 500 61 0) 0 ltac:(lia)) as (t' & Ht' & Hle).
  unfold await_close in Ht'. rewrite staggered_stop in Ht' by lia. injection Ht' as <-. cbn in Hle. lia.
Qed.
Print Assumptions C129_refuted.
Example C129_dead_ex : await_close 1000 0 [fetches 30500 500 [(None, 0)] 0] 0 = Some 31000
  /\ await_close 1000 0 (repeat (fetches 0 500 [(None, 0)] 0) 2) 0 = None
  /\ group_close 1000 5 [] [] [fetches 30500 500 [(None, 0)] 0] 0 = Some 31005.
Proof. repeat split; reflexivity. Qed.

(** C129, refuted for the group consumer: neither the wait for a heartbeat nor the wait for the
    partition consumers nor the leave request is limited by the timeout. *)
Theorem C129_group_refuted : forall timeout, 0 <= timeout ->
  ~ in_time 0 timeout (group_close timeout 0 [] [(0, Some (timeout + 1))] [] 0) /\
  ~ in_time 0 timeout (group_close timeout 0 [] [] [[(0, Some (timeout + 1))]] 0) /\
  (0 < timeout -> ~ in_time 0 timeout (group_close timeout (timeout + 1) [] [] [] 0)).
Proof.
  intros timeout Ht.
  assert (E : (0 <? timeout + 1) = true) by (apply Z.ltb_lt; lia).
  repeat split.
  - intros (t' & H & Hle). unfold group_close in H. cbn [free_at stop_all Z.leb] in H.
    change (0 <=? 0) with true in H. rewrite E in H. cbn [andb] in H.
    destruct (0 <? timeout); injection H as <-; lia.
  - intros (t' & H & Hle). unfold group_close in H. cbn [free_at stop_all] in H.
    change (0 <=? 0) with true in H. rewrite E in H. cbn [andb] in H.
    destruct (0 <? timeout); injection H as <-; lia.
  - intros Hp (t' & H & Hle). unfold group_close in H. cbn [free_at stop_all] in H.
    assert ((0 <? timeout) = true) as Hq by (apply Z.ltb_lt; lia). rewrite Hq in H. injection H as <-. lia.
Qed.
Print Assumptions C129_group_refuted.

(** C130: a member that has to rejoin sends its join request, when the fetches have a deadline,
    after at most one deadline and one backoff for every partition it consumed. *)
Theorem C130_rejoins : forall deadline backoff lock ls t, 0 < deadline -> 0 <= backoff -> short deadline lock ->
  exists t', rejoins_at lock (map (fun x => fetches deadline backoff (fst x) (snd x)) ls) t = Some t' /\
    t <= t' <= t + deadline + Z.of_nat (length ls) * (deadline + backoff).
Proof.
  intros deadline backoff lock ls t Hd Hb Hl.
  destruct (free_at_short deadline lock ltac:(lia) Hl t) as (u & Hu & Hule). unfold rejoins_at. rewrite Hu.
  destruct (stop_all_short (deadline + backoff) (map (fun x => fetches deadline backoff (fst x) (snd x)) ls)) with (t := u)
    as (v & Hv & Hle); [lia| |].
  - apply Forall_forall. intros x Hx. apply in_map_iff in Hx. destruct Hx as (y & <- & _). apply fetches_short; assumption.
  - rewrite map_length in Hle. exists v. split; [exact Hv|lia].
Qed.
Print Assumptions C130_rejoins.

(** C130: it does so within the session timeout if it consumes few partitions. *)
Theorem C130_in_session_partial : forall w session ls t, 0 <= w -> Forall (short w) ls ->
  Z.of_nat (length ls) * w <= session -> in_time t session (rejoins_at [] ls t).
Proof.
  intros w session ls t Hw Hs Hn. destruct (stop_all_short w ls Hw Hs t) as (u & Hu & Hle).
  exists u. split; [exact Hu|lia].
Qed.
Print Assumptions C130_in_session_partial.
Example C130_ex : rejoins_at [(2995, Some 3005)] [fetches 30500 500 (idle 500 9) 0; fetches 30500 500 (idle 500 9) 123] 3000 = Some 3623.
Proof. reflexivity. Qed.

(** C130, refuted: with the default settings (session.timeout.ms 30000) a member of 61 idle
    partitions that learns that it has to rejoin may be silent for longer than its session. *)
Theorem C130_refuted : exists ls, length ls = 61%nat /\ Forall (short 500) ls /\ ~ in_time 0 30000 (rejoins_at [] ls 0).
Proof.
  exists (staggered 500 61 0). split; [reflexivity|]. split.
  - generalize 0 at 1. generalize 61%nat. induction n as [|n IH]; intros t; cbn [staggered]; constructor; [|apply IH].
    unfold idle, short. cbn. repeat constructor; eexists; (split; [reflexivity|cbn [fst]; lia]).
  - intros (t' & H & Hle). unfold rejoins_at in H. cbn [free_at] in H. rewrite staggered_stop in H by lia.
    injection H as <-. cbn in Hle. lia.
Qed.
Print Assumptions C130_refuted.

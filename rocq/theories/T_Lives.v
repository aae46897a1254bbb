(** Theorems about the goroutines the package starts. *)
From Verif Require Import Base Wire Group Gcons GconsSpec GconsRefute Lives LivesSpec LivesFacts.
From Verif Require Brokers Owners OwnersSpec OwnersFacts T_Owners.

(** ** C139: goroutines end after closing *)

(** Statement: after Close of a producer, a consumer or a group consumer every goroutine it started
    ends, as soon as it has had its turn.

    It is false for a producer: the goroutine that looks up the topic runs for ever, *)
Theorem C139_producer_refuted : forall before after, In PReturn before ->
  pl_ticks (pruns pinit (before ++ PClose :: after)) = true.
Proof. intros before after H. exact (ticks_for_ever before (PClose :: after) H). Qed.
Print Assumptions C139_producer_refuted.
(** and with the next look-up it starts a goroutine for flushing that nothing ends, however many turns it gets. *)
Theorem C139_restarted_refuted : forall before turns, only_loops turns ->
  exists s, In s (pl_sps (pruns pinit (before ++ PClose :: PUpdate true :: turns))) /\ sp_closed s = false /\ sp_runs s = true.
Proof. exact producer_again. Qed.
Print Assumptions C139_restarted_refuted.
(** It goes on making connections that nobody closes: after Close, one for each look-up that works. *)
Theorem C139_connections_refuted : forall W dial exch ord w boot topic own ns p k ns' p' k',
  Brokers.NewBrokers W dial exch w boot = (own, None) ->
  Owners.updates W dial exch ord boot topic (Owners.mkProd W own None []) ns = (p, k) ->
  Owners.updates W dial exch ord boot topic (Owners.ProducerClose W p) ns' = (p', k') ->
  (k + k' <= OwnersSpec.open_count (Owners.p_traces W p'))%nat.
Proof.
  intros W dial exch ord w boot topic own ns p k ns' p' k' E U U'.
  destruct (OwnersFacts.R_NewBrokers W dial exch ord _ _ _ _ E) as [_ H]. destruct (H eq_refl) as [i Hi].
  assert (P0 : OwnersFacts.p_ok W (Owners.mkProd W own None [])) by (split; [exists i; exact Hi|exact Logic.I]).
  destruct (OwnersFacts.updates_open W dial exch ord _ _ _ _ _ _ P0 U) as [[Po Pc] L].
  assert (P1 : OwnersFacts.p_ok W (Owners.ProducerClose W p)).
  { split; [exact Po|]. cbn. destruct (Owners.p_cur W p) as [[b h]|]; [|exact Logic.I]. cbn. destruct Pc as [j J]. exists j. destruct h as [h|]; [|exact J].
    cbn in *. apply OwnersFacts.has_close; [exact J|]. destruct J as (_ & G & _). intros ->. apply G. cbn. rewrite OwnersFacts.gone_app. apply in_or_app. right. left. reflexivity. }
  destruct (OwnersFacts.updates_open W dial exch ord _ _ _ _ _ _ P1 U') as [[Qo Qc] L'].
  unfold OwnersFacts.leftover, OwnersFacts.running in *. unfold OwnersSpec.open_count, Owners.p_traces. cbn [Owners.ProducerClose Owners.p_old Owners.p_cur Owners.p_own flat_map map length] in *.
  pose proof (OwnersFacts.some_count W dial _ Qo) as Q1. rewrite !app_length.
  assert (T : (length (flat_map OwnersSpec.open_now (map (Brokers.b_tr W) (Owners.p_old W p'))) <=
    length (flat_map OwnersSpec.open_now ((match Owners.p_cur W p' with Some (b, _) => [Brokers.b_tr W b] | None => [] end) ++ map (Brokers.b_tr W) (Owners.p_old W p'))))%nat)
    by (rewrite flat_map_app, app_length; lia).
  destruct (Owners.p_cur W p) as [[b h]|], (Owners.p_cur W p') as [[b' h']|]; lia.
Qed.
Print Assumptions C139_connections_refuted.
(** What Close does end: the goroutines for flushing, if no look-up and no new key comes after it. *)
Theorem C139_producer_partial : forall before turns, only_loops turns ->
  (forall i, (i < length (pl_sps (pruns pinit before)))%nat -> In (PLoop i true) turns) ->
  filter sp_runs (pl_sps (pruns pinit (before ++ PClose :: turns))) = [].
Proof. exact producer_ends. Qed.
Print Assumptions C139_producer_partial.
(** And at any time there is at most one more simple producer that is not closed than there are
    partitions for which messages with keys were added. *)
Theorem C139_bound_partial : forall ops pids, NoDup pids -> (forall pid ok, In (PKey pid ok) ops -> In pid pids) ->
  (length (filter unclosed (pl_sps (pruns pinit ops))) <= 1 + length pids)%nat.
Proof. intros ops pids. exact (producer_bound pids ops). Qed.
Print Assumptions C139_bound_partial.
(** The goroutine that looks up the topic starts when NewProducer returns, not before. *)
Theorem C139_not_before : forall ops, ~ In PReturn ops -> pl_ticks (pruns pinit ops) = false.
Proof.
  intros ops. assert (G : forall l p, ~ In PReturn l -> pl_ticks p = false -> pl_ticks (pruns p l) = false); [|intros H; exact (G ops pinit H eq_refl)].
  induction l as [|o l IH]; intros p N H; [exact H|]. cbn. apply IH; [intros X; apply N; right; exact X|].
  destruct o as [|[]|pid ok|i chan|]; cbn [pstep]; try exact H; [contradict N; left; reflexivity|]. destruct (_ || _); exact H.
Qed.
Print Assumptions C139_not_before.
(** Goroutines that run after Close: one if the flushing ones got their turn, two or more after the next look-up. *)
Theorem C139_count_refuted : forall before turns, In PReturn before -> only_loops turns ->
  ((forall i, (i < length (pl_sps (pruns pinit before)))%nat -> In (PLoop i true) turns) -> pcount (pruns pinit (before ++ PClose :: turns)) = 1%nat) /\
  (2 <= pcount (pruns pinit (before ++ PClose :: PUpdate true :: turns)))%nat.
Proof.
  intros before turns R L. unfold pcount. rewrite !(ticks_for_ever before _ R). split.
  - intros T. rewrite (producer_ends before turns L T). reflexivity.
  - destruct (producer_again before turns L) as (s & I & _ & S). assert (X : In s (filter sp_runs (pl_sps (pruns pinit (before ++ PClose :: PUpdate true :: turns))))) by (apply filter_In; split; assumption).
    destruct (filter sp_runs _) as [|x l]; [contradiction X|]. cbn. lia.
Qed.
Print Assumptions C139_count_refuted.
(** three look-ups, of which one fails, messages for two partitions, Close; then the flushing
    goroutines get their turn; then another look-up *)
Example C139_producer_example :
  let a := [PUpdate false; PUpdate true; PReturn; PKey 4 true; PUpdate true; PKey 7 true; PKey 4 true; PLoop 0 true] in
  let b := [PLoop 0 true; PLoop 1 false; PLoop 1 true; PLoop 2 true; PLoop 3 true] in
  map sp_runs (pl_sps (pruns pinit a)) = [false; true; true; true] /\ map unclosed (pl_sps (pruns pinit a)) = [false; true; true; true] /\
  pcount (pruns pinit (a ++ PClose :: b)) = 1%nat /\ pcount (pruns pinit (a ++ PClose :: b ++ [PUpdate true])) = 2%nat.
Proof. repeat split. Qed.

(** The goroutine that AwaitClose starts never ends if the timer comes first. *)
Theorem C139_await_refuted : forall wg before after, ~ In AMeet before ->
  aw_helper (aruns (mkAw wg HWait true) (before ++ ATimeout :: after)) <> HGone.
Proof.
  intros wg before after N. unfold aruns. rewrite fold_left_app. cbn [fold_left]. apply await_stuck; [destruct (fold_left astep before _) as [w h b]; reflexivity|].
  change (aw_helper (fold_left astep before (mkAw wg HWait true)) <> HGone). generalize (mkAw wg HWait true), (eq_refl : aw_helper (mkAw wg HWait true) = HWait).
  assert (G : forall l a, ~ In AMeet l -> aw_helper a <> HGone -> aw_helper (fold_left astep l a) <> HGone).
  { induction l as [|o l IH]; intros a M H; [exact H|]. cbn in *. apply IH; [tauto|]. destruct a as [w h b]. cbn in *.
    destruct o, h; cbn; try (destruct (w <=? 0)); cbn; auto; try discriminate; tauto. }
  intros a E. apply G; [exact N|]. rewrite E. discriminate.
Qed.
Print Assumptions C139_await_refuted.
(** If it does not, the goroutine has ended when AwaitClose returns; *)
Theorem C139_await_partial : forall wg ops, ~ In ATimeout ops ->
  aw_waits (aruns (mkAw wg HWait true) ops) = false -> aw_helper (aruns (mkAw wg HWait true) ops) = HGone.
Proof. intros wg ops N. apply await_met; [exact N|discriminate]. Qed.
Print Assumptions C139_await_partial.
(** and AwaitClose does return when all [n] partition consumers have stopped. *)
Theorem C139_awaited : forall n : nat, aruns (mkAw (Z.of_nat n) HWait true) (repeat ADone n ++ [ASend; AMeet]) = mkAw 0 HGone false.
Proof.
  intros n. unfold aruns. rewrite fold_left_app. change (fold_left astep (repeat ADone n) (mkAw (Z.of_nat n) HWait true)) with (aruns (mkAw (Z.of_nat n) HWait true) (repeat ADone n)).
  rewrite await_dones, Z.sub_diag. reflexivity.
Qed.
Print Assumptions C139_awaited.
Example C139_await_example :
  aruns (mkAw 1 HWait true) [ASend; ADone; ASend; AMeet] = mkAw 0 HGone false /\
  aruns (mkAw 1 HWait true) [ASend; ADone; ATimeout; ASend; AMeet; AMeet] = mkAw 0 HSend false.
Proof. split; reflexivity. Qed.

(** A group consumer that is closed while it waits for its assignment makes partition consumers that
    nobody stops: their goroutines run for ever, if it is left alone. *)
Definition late : list lop := map LStep [OLook 0 (Ok tt); OJoin 0; OJoinAns 0 (Ok (7, ([97], [97]))) false; OSet 0; OSync 0; OClose;
  OSyncAns 0 (Ok (0 :: 0 :: 0 :: 0 :: 0 :: 1 :: 0 :: 1 :: 116 :: be 4 1 ++ be 4 3 ++ be 4 0)); OTakeClose 0] ++ [LBeat; LMeta].
Theorem C139_group_refuted : exists before s i, lrun linit before = Ok s /\
  g_closed (gl_g s) = true /\ Forall finished (g_sess (gl_g s)) /\ gl_beats s = 0%nat /\ gl_metas s = 0%nat /\
  forall after s', Forall left_alone after -> lrun s after = Ok s' ->
    exists c, nth_error (gl_pcs s') i = Some c /\ pc_off c = false /\ pc_runs c = true.
Proof.
  exists late. eexists. exists 0%nat. split; [vm_compute; reflexivity|].
  match goal with |- _ /\ _ /\ _ /\ _ /\ forall after s', _ -> lrun ?s _ = _ -> _ => set (s0 := s) end.
  split; [reflexivity|]. split; [constructor; [reflexivity|constructor]|].
  split; [reflexivity|]. split; [reflexivity|]. intros after s' L E.
  refine (astray_run after s0 s' 0%nat (mkPc ([116], 3) true false true) L _ _ E); [reflexivity|split; reflexivity].
Qed.
Print Assumptions C139_group_refuted.
(** A group consumer that is used again soon after it was closed has the goroutines of both uses. *)
Theorem C139_again_refuted : exists before s, lrun linit (before ++ [LStep OClose; LStep (OTakeClose 0); LStep (OLeave (Ok tt)); LConsume]) = Ok s /\
  gl_beats s = 2%nat /\ gl_metas s = 2%nat /\
  forall ticks s', Forall (fun o => o = LBeat \/ o = LMeta) ticks -> lrun s ticks = Ok s' -> gl_beats s' = 2%nat /\ gl_metas s' = 2%nat.
Proof.
  exists (map LStep (start 0 7 [97] [97])). eexists. split; [vm_compute; reflexivity|]. split; [reflexivity|]. split; [reflexivity|].
  match goal with |- forall ticks s', _ -> lrun ?s _ = _ -> _ => set (s0 := s); assert (C : g_closed (gl_g s0) = false) by reflexivity; assert (B : gl_beats s0 = 2%nat) by reflexivity; assert (M : gl_metas s0 = 2%nat) by reflexivity; generalize dependent s0 end.
  intros s C B M ticks s' L. revert s C B M. induction L as [|o l Ho L IH]; intros s C B M E; cbn [lrun] in E.
  - injection E as <-. auto.
  - destruct Ho as [-> | ->]; cbn [lstep rbind] in E; rewrite C in E; (eapply IH; [| | |exact E]; assumption).
Qed.
Print Assumptions C139_again_refuted.
(** If restarts and Close come when the group consumer is settled, and Consume is called once, then after
    Close no goroutine is left when each has had its turn. *)
Theorem C139_group_partial : forall before s, lguarded linit before -> lrun linit before = Ok s -> g_closed (gl_g s) = true ->
  Forall (fun c => pc_off c = true) (gl_pcs s) /\
  exists s', lrun s (map LRefresh (seq 0 (length (gl_pcs s))) ++ [LBeat; LMeta]) = Ok s' /\ lcount s' = 0%nat.
Proof. intros before s G E C. split; [exact (proj1 (group_off before s G E C))|exact (group_ends before s G E C)]. Qed.
Print Assumptions C139_group_partial.
(** Until their next tick the two goroutines of Consume run, closed or not, beside those of the partition
    consumers. *)
Theorem C139_until_tick : forall ops s, Forall (fun o => match o with LStep _ | LRefresh _ => True | _ => False end) ops ->
  lrun linit ops = Ok s -> lcount s = (2 + length (filter pc_runs (gl_pcs s)))%nat.
Proof.
  intros ops s F E. assert (G : forall l a, Forall (fun o => match o with LStep _ | LRefresh _ => True | _ => False end) l ->
    lrun a l = Ok s -> gl_beats s = gl_beats a /\ gl_metas s = gl_metas a).
  { induction l as [|o l IH]; intros a Fl El; cbn [lrun] in El; [injection El as <-; split; reflexivity|].
    inversion Fl as [|? ? Ho Fl']; subst. destruct o as [op|i| | |]; try contradiction Ho; cbn [lstep] in El.
    - destruct (gstep (gl_g a) op) as [r| | |]; try discriminate El. cbn [rbind] in El. exact (IH _ Fl' El).
    - cbn [rbind] in El. exact (IH _ Fl' El). }
  destruct (G ops linit F E) as [B M]. unfold lcount. rewrite B, M. cbn [linit gl_beats gl_metas]. lia.
Qed.
Print Assumptions C139_until_tick.
(** a group consumer that joined twice and was closed *)
Example C139_group_example : lguarded linit (map LStep life) /\
  exists s, lrun linit (map LStep life) = Ok s /\ g_closed (gl_g s) = true /\ length (gl_pcs s) = 2%nat /\ lcount s = 4%nat.
Proof.
  split; [apply guarded_lives; exact life_orderly|]. eexists. split; [vm_compute; reflexivity|]. repeat split.
Qed.
